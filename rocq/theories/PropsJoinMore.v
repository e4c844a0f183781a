(** * Statistics and budgets of joined journals: C90, C91 *)
From Verif Require Import Base BaseFacts Utf8 Unicode GoTime Strconv Display Journal Lexer Parser ParserFacts Account JournalFacts TreeFacts
  Reporting Budget Cmd Spec TextSpec DateFacts CalendarFacts AmountFacts CmdSpec StreamFacts CmdFacts ReportSpec TreeSpec FlatSpec FlatFacts
  Sample PropsCmd PropsBalance PropsPrint PropsStats BudgetSpec BudgetFacts PropsBudget PropsConcat PropsJoin.

(** ** C90: statistics *)

(** What a report of stats tells: how many transactions, which accounts and
    payees (it gives their numbers), and the first and last date. *)
Inductive tells (E : env) : list str -> nat -> list str -> list str -> option (date * date) -> Prop :=
| TellsNone : tells E (lines [lit "No transactions matched arguments."]) 0 [] [] None
| TellsSome : forall n accs pays fd ld files period rate age nt na np,
    (0 < n)%nat -> NoDup accs -> NoDup pays ->
    canonical nt (Z.of_nat n) -> canonical na (Z.of_nat (length accs)) -> canonical np (Z.of_nat (length pays)) ->
    tells E (files ++ [lit "First transaction:" ++ tab ++ shown_date E 0 fd; lit "Last transaction:" ++ tab ++ shown_date E 1 ld;
               lit "Time period:" ++ tab ++ tab ++ period;
               lit "Transactions:" ++ tab ++ tab ++ nt ++ lit " (" ++ rate;
               lit "Unique accounts:" ++ tab ++ na ++ [10]; lit "Unique payees:" ++ tab ++ tab ++ np ++ [10];
               lit "Age of money:" ++ tab ++ tab ++ age]) n accs pays (Some (fd, ld)).

Lemma tells_holding : forall E p x out n accs pays r, tells (holding E p x) out n accs pays r -> tells E out n accs pays r.
Proof.
  intros E p x out n accs pays r H. destruct H as [|n accs pays fd ld files period rate age nt na np H1 H2 H3 H4 H5 H6]; [exact (TellsNone E)|].
  exact (TellsSome E n accs pays fd ld files period rate age nt na np H1 H2 H3 H4 H5 H6).
Qed.

(** The days two spans of time make up. *)
Inductive span : option (date * date) -> option (date * date) -> option (date * date) -> Prop :=
| SpanLeft : forall r, span r None r
| SpanRight : forall r, span None r r
| SpanBoth : forall f1 l1 f2 l2 f l,
    f = f1 /\ ~ earlier f2 f1 \/ f = f2 /\ ~ earlier f1 f2 ->
    l = l1 /\ ~ earlier l1 l2 \/ l = l2 /\ ~ earlier l2 l1 ->
    span (Some (f1, l1)) (Some (f2, l2)) (Some (f, l)).

Lemma used_accounts_taken : forall sel x, used_accounts sel x <-> exists p, In p (taken sel) /\ po_account p = x.
Proof.
  intros sel x. unfold used_accounts, taken. split.
  - intros (u & ps & q & I & J & Q). exists q. split; [|exact Q]. apply in_flat_map. exists (u, ps). auto.
  - intros (q & I & Q). apply in_flat_map in I as ([u ps] & I & J). eauto 6.
Qed.
Lemma used_payees_selected : forall sel x, used_payees sel x <-> exists t, In t (selected sel) /\ t_payee t = x.
Proof.
  intros sel x. unfold used_payees, selected. split.
  - intros (u & ps & I & Q). exists (u_txn u). split; [|exact Q]. apply in_map_iff. exists (u, ps). auto.
  - intros (t & I & Q). apply in_map_iff in I as ([u ps] & J & I). cbn in J. subst t. eauto.
Qed.

(** What stats tells, of the selection. *)
Definition tells_of (E : env) (O : opts) (sel : list (used * list posting)) (accs pays : list str) (r : option (date * date)) : Prop :=
  tells E (r_out (stats_cmd E O)) (length sel) accs pays r /\
  (forall x, In x accs <-> exists q, In q (taken sel) /\ po_account q = x) /\
  (forall x, In x pays <-> exists t, In t (selected sel) /\ t_payee t = x) /\
  (sel = [] -> r = None) /\
  (Forall (fun t => t_date t <> Date 1 1 1) (selected sel) -> sel <> [] -> exists f l, r = Some (f, l) /\ earliest sel f /\ latest sel l).

Lemma stats_tells : forall E O fs, sane_clock E -> orders E -> filters_for E (o_args O) fs -> r_status (stats_cmd E O) = SOk ->
  CmdSpec.readable E O /\ exists sel accs pays r, picks E O fs (txns 0 (fst (stream E O))) sel /\ tells_of E O sel accs pays r.
Proof.
  intros E O fs C Or F St. destruct (stats_cmd E O) as [out st] eqn:Q. cbn in St. subst st.
  destruct (C44_stats_partial E O fs out C Or F Q) as (R & sel & P & K0 & K1). split; [exact R|]. exists sel.
  unfold tells_of. rewrite Q. cbn [r_out]. destruct sel as [|x sel].
  - exists [], [], None. split; [exact P|]. rewrite (K0 eq_refl). split; [constructor|]. split; [|split; [|split]].
    + intro z. split; [intros []|]. intros (q & [] & _).
    + intro z. split; [intros []|]. intros (q & [] & _).
    + reflexivity.
    + intros _ N. contradiction.
  - destruct (K1 ltac:(discriminate)) as (nf & fl & fd & ld & period & nt & rate & na & np & age & accs & pays & files & Qo & Cn & La & Ca & Lp & Cp & _ & _ & _ & D).
    exists accs, pays, (Some (fd, ld)). split; [exact P|]. split; [|split; [|split; [|split]]].
    + rewrite Qo, app_assoc. apply TellsSome; auto; try apply La; try apply Lp. cbn. lia.
    + intro z. rewrite (proj2 La z). apply used_accounts_taken.
    + intro z. rewrite (proj2 Lp z). apply used_payees_selected.
    + discriminate.
    + intros Nz _. exists fd, ld. split; [reflexivity|]. exact (D Nz).
Qed.

(** ** C91: budgets *)
(** [budget_tells log]: budget reports the moves [log]. *)
Definition budget_tells (E : env) (O : opts) (fs : list filter_) (log : list move) : Prop :=
  exists l bs, history E O fs 0 (fst (stream E O)) log /\ months_of log l /\
    Forall2 (fun ym b => month_block (fst ym) (snd ym) (month (fst ym) (snd ym) log) b) l bs /\
    r_out (budget_cmd E O) = objected [] log ++ concat bs.

Lemma history_holding : forall E p x O fs n evs log, history (holding E p x) O fs n evs log <-> history E O fs n evs log.
Proof.
  intros E p x O fs n evs log. split; induction 1; [constructor|constructor; auto|apply HistNot; auto|apply HistTxn; auto
    |constructor|constructor; auto|apply HistNot; auto|apply HistTxn; auto].
Qed.
Lemma activity_perm : forall t ps ps', Permutation ps ps' -> Permutation (activity t ps) (activity t ps').
Proof. intros t ps ps' P. now apply Permutation_flat_map. Qed.
Lemma history_same : forall E O fs n evs log, history E O fs n evs log -> forall log', history E O fs n evs log' -> Permutation log log'.
Proof.
  induction 1 as [n|n pt p evs log H IH|n t p evs log No H IH|n t p ps evs log W Hi P Wh H IH]; intros log' K; inversion K; subst; auto.
  - apply Permutation_app_head. auto.
  - exfalso. destruct No as [No|No]; [contradiction|congruence].
  - exfalso. match goal with X : _ \/ hit _ _ _ = false |- _ => destruct X as [No|No] end; [contradiction|congruence].
  - apply Permutation_app; [|auto]. apply activity_perm. rewrite P. now symmetry.
Qed.

Lemma sum_of_perm : forall f l l', Permutation l l' -> sum_of f l = sum_of f l'.
Proof.
  intros f l l' P. unfold sum_of, total, sumZ. induction P as [|x l l' P IH|x y l|l l' l'' P1 IH1 P2 IH2]; cbn [filter]; [reflexivity| | |congruence].
  - destruct (f x); [cbn [map fold_right]; now rewrite IH|exact IH].
  - destruct (f x), (f y); cbn [map fold_right]; try reflexivity; lia.
Qed.
Lemma sum_of_app : forall f l l', sum_of f (l ++ l') = sum_of f l + sum_of f l'.
Proof.
  intros f l l'. unfold sum_of, total, sumZ. induction l as [|x l IH]; [reflexivity|]. cbn [app filter].
  destruct (f x); [|exact IH]. cbn [map fold_right]. rewrite IH. lia.
Qed.
Lemma month_perm : forall y m l l', Permutation l l' -> Permutation (month y m l) (month y m l').
Proof.
  intros y m l l' P. unfold month. induction P as [|x l l' P IH|x z l|l l' l'' P1 IH1 P2 IH2]; cbn [filter]; [constructor| | |etransitivity; eauto].
  - destruct (in_month y m x); auto.
  - destruct (in_month y m x), (in_month y m z); auto. apply perm_swap.
Qed.
Lemma sum_joined : forall f y m l l1 l2, Permutation l (l1 ++ l2) ->
  sum_of f (month y m l) = sum_of f (month y m l1) + sum_of f (month y m l2).
Proof.
  intros f y m l l1 l2 P. rewrite (sum_of_perm f _ _ (month_perm y m _ _ P)), <- sum_of_app. unfold month. now rewrite filter_app.
Qed.

Section JoinedMore.
Variable E : env.
Variable O : opts.
Variables p a b : str.
Hypothesis Path : journal_path E O = Some p.
Hypothesis Start : line_start a.
Hypothesis Steady : steady E.
Hypothesis Clock : sane_clock E.
Hypothesis Orders : orders E.
Variable fs : list filter_.
Hypothesis Filters : filters_for E (o_args O) fs.
Let E1 := holding E p a.
Let E2 := holding E p b.
Let E3 := holding E p (a ++ LF :: b).

Lemma holding_picked : sorts E -> forall x, CmdSpec.readable (holding E p x) O ->
  exists sel, picks (holding E p x) O fs (txns 0 (fst (stream (holding E p x) O))) sel.
Proof.
  intros So x R. destruct (C42_print (holding E p x) O fs Clock Orders So (holding_filters E O p fs Filters x)) as [K _].
  destruct (K R) as (s & _ & P & _). eauto.
Qed.

Lemma span_joined : forall s1 s2 s r1 r2 r,
  selected s = selected s1 ++ selected s2 ->
  (s1 = [] -> r1 = None) -> (s1 <> [] -> exists f l, r1 = Some (f, l) /\ earliest s1 f /\ latest s1 l) ->
  (s2 = [] -> r2 = None) -> (s2 <> [] -> exists f l, r2 = Some (f, l) /\ earliest s2 f /\ latest s2 l) ->
  (s = [] -> r = None) -> (s <> [] -> exists f l, r = Some (f, l) /\ earliest s f /\ latest s l) ->
  (forall t, In t (selected s) -> real_date (t_date t)) -> span r1 r2 r.
Proof.
  intros s1 s2 s r1 r2 r Q N1 D1 N2 D2 N D R.
  assert (Rd : forall d, In d (map t_date (selected s)) -> real_date d).
  { intros d I. apply in_map_iff in I as (t & <- & I). auto. }
  assert (Same : forall d d', In d (map t_date (selected s)) -> In d' (map t_date (selected s)) -> ~ earlier d d' -> ~ earlier d' d -> d = d').
  { intros d d' I I' A B. apply Rd in I, I'. rewrite <- (instant_order d d' I I') in A. rewrite <- (instant_order d' d I' I) in B.
    apply instant_inj; auto. lia. }
  assert (Sub1 : forall d, In d (map t_date (selected s1)) -> In d (map t_date (selected s))).
  { intros d I. rewrite Q, map_app. apply in_app_iff. auto. }
  assert (Sub2 : forall d, In d (map t_date (selected s2)) -> In d (map t_date (selected s))).
  { intros d I. rewrite Q, map_app. apply in_app_iff. auto. }
  assert (Or : forall d, In d (map t_date (selected s)) -> In d (map t_date (selected s1)) \/ In d (map t_date (selected s2))).
  { intros d I. rewrite Q, map_app in I. now apply in_app_iff in I. }
  assert (Nil : forall s : list (used * list posting), selected s = [] -> s = []) by (intros [|x y]; [reflexivity|discriminate]).
  assert (Ne : s1 <> [] \/ s2 <> [] -> s <> []).
  { intros H X. rewrite X in Q. cbn in Q. symmetry in Q. apply app_eq_nil in Q as [A B]. apply Nil in A, B. tauto. }
  destruct s1 as [|x1 s1'].
  { rewrite (N1 eq_refl). cbn [selected map app] in Q. destruct s2 as [|x2 s2'].
    - rewrite (N2 eq_refl), (N (Nil _ Q)). constructor.
    - destruct (D2 ltac:(discriminate)) as (f2 & l2 & -> & [I2 M2] & [J2 K2]).
      assert (X2 : x2 :: s2' <> []) by discriminate. destruct (D (Ne (or_intror X2))) as (f & l & -> & [I M] & [J K]).
      rewrite Q in I, M, J, K. rewrite Q in Same. rewrite (Same f f2), (Same l l2); auto. constructor. }
  destruct (D1 ltac:(discriminate)) as (f1 & l1 & -> & [I1 M1] & [J1 K1]).
  assert (X1 : x1 :: s1' <> []) by discriminate. destruct (D (Ne (or_introl X1))) as (f & l & -> & [I M] & [J K]).
  destruct s2 as [|x2 s2'].
  - rewrite (N2 eq_refl). cbn [selected map] in Q. rewrite app_nil_r in Q.
    rewrite Q in I, M, J, K, Same. rewrite (Same f f1), (Same l l1); auto. constructor.
  - destruct (D2 ltac:(discriminate)) as (f2 & l2 & -> & [I2 M2] & [J2 K2]). constructor.
    + destruct (Or f I) as [H|H].
      * left. assert (f = f1) by (apply Same; auto). subst f. auto.
      * right. assert (f = f2) by (apply Same; auto). subst f. auto.
    + destruct (Or l J) as [H|H].
      * left. assert (l = l1) by (apply Same; auto). subst l. auto.
      * right. assert (l = l2) by (apply Same; auto). subst l. auto.
Qed.

(** Statistics of a journal made of two: it counts the transactions of both,
    the accounts and payees of either, and spans both. *)
Theorem C90_joined : sorts E ->
  (r_status (stats_cmd E3 O) = SOk <-> r_status (stats_cmd E1 O) = SOk /\ r_status (stats_cmd E2 O) = SOk) /\
  (r_status (stats_cmd E3 O) = SOk ->
   exists n1 n2 accs1 accs2 accs pays1 pays2 pays r1 r2 r,
     tells E (r_out (stats_cmd E1 O)) n1 accs1 pays1 r1 /\ tells E (r_out (stats_cmd E2 O)) n2 accs2 pays2 r2 /\
     tells E (r_out (stats_cmd E3 O)) (n1 + n2) accs pays r /\
     (forall x, In x accs <-> In x accs1 \/ In x accs2) /\ (forall x, In x pays <-> In x pays1 \/ In x pays2) /\
     (Forall (fun u => t_date (u_txn u) <> Date 1 1 1) (txns 0 (fst (stream E3 O))) -> span r1 r2 r)).
Proof.
  intro So. pose proof (holding_picked So) as Pk.
  pose proof (joined_picks E O p a b Path Start Steady fs) as Jp. pose proof (joined_readable E O p a b Path Start Steady) as Jr.
  assert (B : r_status (stats_cmd E3 O) = SOk <-> r_status (stats_cmd E1 O) = SOk /\ r_status (stats_cmd E2 O) = SOk).
  { unfold E1, E2, E3. rewrite !(fun x => C44_completes (holding E p x) O fs Clock Orders (holding_filters E O p fs Filters x)). split.
    - intros [R (s & P & H)]. pose proof (proj1 Jr R) as [R1 R2]. destruct (Pk a R1) as (s1 & P1), (Pk b R2) as (s2 & P2).
      destruct (Jp s1 s2 s (proj1 R) P1 P2 P) as [_ T]. unfold no_income_without_amount in H. rewrite T in H. apply Forall_app in H as [H1 H2].
      split; (split; [assumption|]); eauto.
    - intros [[R1 (s1 & P1 & H1)] [R2 (s2 & P2 & H2)]]. pose proof (proj2 Jr (conj R1 R2)) as R. destruct (Pk _ R) as (s & P).
      destruct (Jp s1 s2 s (proj1 R) P1 P2 P) as [_ T]. split; [exact R|]. exists s. split; [exact P|].
      unfold no_income_without_amount. rewrite T. apply Forall_app. auto. }
  split; [exact B|]. intro H3. pose proof (proj1 B H3) as [H1 H2].
  destruct (stats_tells E3 O fs Clock Orders (holding_filters E O p fs Filters _) H3) as (R & s & accs & pays & r & P & T & A & Y & N & D).
  destruct (stats_tells E1 O fs Clock Orders (holding_filters E O p fs Filters _) H1) as (R1 & s1 & accs1 & pays1 & r1 & P1 & T1 & A1 & Y1 & N1 & D1).
  destruct (stats_tells E2 O fs Clock Orders (holding_filters E O p fs Filters _) H2) as (R2 & s2 & accs2 & pays2 & r2 & P2 & T2 & A2 & Y2 & N2 & D2).
  destruct (Jp s1 s2 s (proj1 R) P1 P2 P) as [Se Ta].
  exists (length s1), (length s2), accs1, accs2, accs, pays1, pays2, pays, r1, r2, r.
  split; [exact (tells_holding _ _ _ _ _ _ _ _ T1)|]. split; [eapply tells_holding; exact T2|].
  assert (Ls : length s = (length s1 + length s2)%nat).
  { pose proof (f_equal (@length transaction) Se) as L. unfold selected in L. rewrite app_length, !map_length in L. exact L. }
  split; [rewrite <- Ls; exact (tells_holding _ _ _ _ _ _ _ _ T)|].
  split; [|split].
  - intro z. rewrite A, A1, A2. split.
    + intros (q & I & Q). rewrite Ta in I. apply in_app_iff in I as [I|I]; eauto.
    + intros [(q & I & Q)|(q & I & Q)]; exists q; (split; [|exact Q]); rewrite Ta; apply in_app_iff; auto.
  - intro z. rewrite Y, Y1, Y2. rewrite Se. split.
    + intros (q & I & Q). apply in_app_iff in I as [I|I]; eauto.
    + intros [(q & I & Q)|(q & I & Q)]; exists q; (split; [|exact Q]); apply in_app_iff; auto.
  - intro Fz.
    assert (Z : Forall (fun t => t_date t <> Date 1 1 1) (selected s)).
    { clear - P Fz. induction P; [constructor|inversion Fz; auto|]. inversion Fz; subst. constructor; auto. }
    pose proof Z as Z'. rewrite Se in Z'. apply Forall_app in Z' as [Z1 Z2].
    apply (span_joined s1 s2 s); auto. intros t I. exact (selected_dated E3 O fs s t P I).
Qed.

Lemma history_renumber : forall n evs log, history E O fs n evs log -> forall m, history E O fs m evs log.
Proof.
  induction 1 as [n|n pt q evs log H IH|n t q evs log No H IH|n t q ps evs log W Hi P Wh H IH]; intro m.
  - constructor.
  - constructor. auto.
  - apply HistNot; [|auto]. destruct No as [No|No]; [left; now rewrite (within_steady E O Steady m n)|now right].
  - apply HistTxn; auto. now rewrite (within_steady E O Steady m n).
Qed.
Lemma history_append : forall n evs1 log1, history E O fs n evs1 log1 -> forall evs2 log2, history E O fs 0 evs2 log2 ->
  history E O fs n (evs1 ++ evs2) (log1 ++ log2).
Proof.
  induction 1 as [n|n pt q evs log H IH|n t q evs log No H IH|n t q ps evs log W Hi P Wh H IH]; intros evs2 log2 K; cbn [app].
  - eapply history_renumber; eauto.
  - rewrite <- app_assoc. constructor. auto.
  - apply HistNot; auto.
  - rewrite <- app_assoc. apply HistTxn; auto.
Qed.
Lemma history_cut : forall evs1 evs2 n log, history E O fs n (evs1 ++ evs2) log ->
  exists log1 log2, log = log1 ++ log2 /\ history E O fs n evs1 log1 /\ history E O fs 0 evs2 log2.
Proof.
  induction evs1 as [|e evs1 IH]; intros evs2 n log H; cbn [app] in H.
  - exists [], log. split; [reflexivity|]. split; [constructor|]. eapply history_renumber; eauto.
  - inversion H; subst; match goal with K : history _ _ _ _ (_ ++ _) _ |- _ => apply IH in K as (l1 & l2 & -> & K1 & K2) end.
    + exists (allocations pt ++ l1), l2. rewrite app_assoc. split; [reflexivity|]. split; [now constructor|exact K2].
    + exists l1, l2. split; [reflexivity|]. split; [now apply HistNot|exact K2].
    + exists (activity t ps ++ l1), l2. rewrite app_assoc. split; [reflexivity|]. split; [now apply HistTxn|exact K2].
Qed.


(** The budget of a journal made of two: month by month and category by category,
    what was assigned, spent and earned is that of both together. *)
Theorem C91_joined :
  (r_status (budget_cmd E3 O) = SOk <-> r_status (budget_cmd E1 O) = SOk /\ r_status (budget_cmd E2 O) = SOk) /\
  (r_status (budget_cmd E3 O) = SOk ->
   exists log1 log2 log, budget_tells E1 O fs log1 /\ budget_tells E2 O fs log2 /\ budget_tells E3 O fs log /\
     Permutation log (log1 ++ log2) /\
     forall y m, earned (month y m log) = earned (month y m log1) + earned (month y m log2) /\
       forall q, assigned q (month y m log) = assigned q (month y m log1) + assigned q (month y m log2) /\
         spent q (month y m log) = spent q (month y m log1) + spent q (month y m log2)).
Proof.
  pose proof (joined_readable E O p a b Path Start Steady) as Jr. pose proof (joined_stream E O p a b Path Start) as [_ Js].
  pose proof (fun x => C48_report (holding E p x) O fs Clock Orders (holding_filters E O p fs Filters x)) as K.
  assert (B : r_status (budget_cmd E3 O) = SOk <-> r_status (budget_cmd E1 O) = SOk /\ r_status (budget_cmd E2 O) = SOk).
  { unfold E1, E2, E3. rewrite !(fun x => proj1 (K x)). split.
    - intros [R (log & H & P)]. pose proof (proj1 Jr R) as [R1 R2]. rewrite (Js (proj1 R)) in H. apply history_holding in H.
      apply history_cut in H as (l1 & l2 & -> & H1 & H2). apply Forall_app in P as [P1 P2].
      split; (split; [assumption|]); [exists l1|exists l2]; (split; [now apply history_holding|assumption]).
    - intros [[R1 (l1 & H1 & P1)] [R2 (l2 & H2 & P2)]]. pose proof (proj2 Jr (conj R1 R2)) as R. split; [exact R|].
      exists (l1 ++ l2). split; [|now apply Forall_app]. rewrite (Js (proj1 R)). apply history_holding. apply history_holding in H1, H2.
      now apply history_append. }
  split; [exact B|]. intro H3. pose proof (proj1 B H3) as [H1 H2].
  pose proof (proj1 (proj1 (proj1 (K _)) H3)) as R.
  destruct (proj2 (K _) H1) as (l1 & ms1 & bs1 & Hi1 & T1). destruct (proj2 (K _) H2) as (l2 & ms2 & bs2 & Hi2 & T2).
  destruct (proj2 (K _) H3) as (l & ms & bs & Hi & T). exists l1, l2, l.
  split; [exists ms1, bs1; auto|]. split; [exists ms2, bs2; auto|]. split; [exists ms, bs; auto|].
  assert (P : Permutation l (l1 ++ l2)).
  { rewrite (Js (proj1 R)) in Hi. apply history_holding in Hi, Hi1, Hi2. exact (history_same _ _ _ _ _ _ Hi _ (history_append _ _ _ Hi1 _ _ Hi2)). }
  split; [exact P|]. intros y m. split; [now apply sum_joined|]. intro q. split; now apply sum_joined.
Qed.
End JoinedMore.

Definition spend_text : str := lit "2021-03-05 C" ++ [10] ++ lit "  Expenses:Food  $2" ++ [10] ++ lit "  w" ++ [10].
Definition assign_text : str := lit "~ 2021-03" ++ [10] ++ lit "  Food  $5" ++ [10] ++ [10]
  ++ lit "2021-04-05 D" ++ [10] ++ lit "  Expenses:Food  $1" ++ [10] ++ lit "  w" ++ [10].
Example C90_example : let E := env1 [] in let O := opts_zero [] [] in let at_ x := holding E (lit "j") x in
  let report x := skipn 2 (r_out (stats_cmd (at_ x) O)) in
  journal_path E O = Some (lit "j") /\ line_start spend_text /\ steady E /\ sane_clock E /\ orders E /\ sorts E /\ filters_for E (o_args O) [] /\
  r_status (stats_cmd (at_ (spend_text ++ LF :: assign_text)) O) = SOk /\
  Forall (fun u => t_date (u_txn u) <> Date 1 1 1) (txns 0 (fst (stream (at_ (spend_text ++ LF :: assign_text)) O))) /\
  report spend_text = lines [lit "First transaction:" ++ tab ++ lit "2021-03-05 (4 months ago)"; lit "Last transaction:" ++ tab ++ lit "2021-03-05 (4 months ago)";
    lit "Time period:" ++ tab ++ tab ++ lit "0 days"; lit "Transactions:" ++ tab ++ tab ++ lit "1 (+Inf per day)";
    lit "Unique accounts:" ++ tab ++ lit "2"; lit "Unique payees:" ++ tab ++ tab ++ lit "1"; lit "Age of money:" ++ tab ++ tab ++ lit "0 days"] /\
  report assign_text = lines [lit "First transaction:" ++ tab ++ lit "2021-04-05 (3 months ago)"; lit "Last transaction:" ++ tab ++ lit "2021-04-05 (3 months ago)";
    lit "Time period:" ++ tab ++ tab ++ lit "0 days"; lit "Transactions:" ++ tab ++ tab ++ lit "1 (+Inf per day)";
    lit "Unique accounts:" ++ tab ++ lit "2"; lit "Unique payees:" ++ tab ++ tab ++ lit "1"; lit "Age of money:" ++ tab ++ tab ++ lit "0 days"] /\
  report (spend_text ++ LF :: assign_text) =
    lines [lit "First transaction:" ++ tab ++ lit "2021-03-05 (4 months ago)"; lit "Last transaction:" ++ tab ++ lit "2021-04-05 (3 months ago)";
    lit "Time period:" ++ tab ++ tab ++ lit "31 days"; lit "Transactions:" ++ tab ++ tab ++ lit "2 (0.1 per day)";
    lit "Unique accounts:" ++ tab ++ lit "2"; lit "Unique payees:" ++ tab ++ tab ++ lit "2"; lit "Age of money:" ++ tab ++ tab ++ lit "0 days"].
Proof.
  cbn zeta. split; [reflexivity|]. split; [right; eexists; unfold spend_text; rewrite !app_assoc; reflexivity|]. split; [intro n; split; reflexivity|].
  split; [apply env1_clock|]. split; [apply env1_orders|]. split; [exact (env0_sorts [])|].
  split; [apply makeFilters_spec; reflexivity|]. split; [vm_compute; reflexivity|]. split.
  { match goal with |- Forall _ ?l => assert (X : forallb (fun u => negb (date_eqb (t_date (u_txn u)) (Date 1 1 1))) l = true) by (vm_compute; reflexivity); revert X; generalize l end.
    intros l X. rewrite forallb_forall in X. apply Forall_forall. intros u I Q. specialize (X u I). rewrite Q in X. discriminate X. }
  split; [vm_compute; reflexivity|]. split; vm_compute; reflexivity.
Qed.

(** (The hypotheses: [C90_example].) *)
Example C91_example : let E := env1 [] in let O := opts_zero [] [] in let at_ x := holding E (lit "j") x in
  let lines_of x := filter (fun l => str_eqb (firstn 4 l) (lit "Food") || str_eqb (firstn 4 l) (lit "2021")) (r_out (budget_cmd (at_ x) O)) in
  r_status (budget_cmd (at_ (spend_text ++ LF :: assign_text)) O) = SOk /\
  lines_of spend_text = lines [lit "2021-03-01 00:00:00 +0000 UTC";
    lit "Food                           |                -2.00 |                 0.00 |               $-2.00 |"] /\
  lines_of assign_text = lines [lit "2021-03-01 00:00:00 +0000 UTC";
    lit "Food                           |                 0.00 |                 5.00 |                $5.00 |"; 
    lit "2021-04-01 00:00:00 +0000 UTC";
    lit "Food                           |                -1.00 |                 0.00 |               $-1.00 |"] /\
  lines_of (spend_text ++ LF :: assign_text) = lines [lit "2021-03-01 00:00:00 +0000 UTC";
    lit "Food                           |                -2.00 |                 5.00 |                $3.00 |"; 
    lit "2021-04-01 00:00:00 +0000 UTC";
    lit "Food                           |                -1.00 |                 0.00 |               $-1.00 |"].
Proof. cbn zeta. split; [vm_compute; reflexivity|]. split; [vm_compute; reflexivity|]. split; vm_compute; reflexivity. Qed.
