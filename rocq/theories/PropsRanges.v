(** * Adjacent ranges of dates, and more arguments

    C73 and C83 say what print and balance do over two adjacent ranges of dates;
    here the same is said of accounts, payees, stats and budget. *)
From Verif Require Import Base BaseFacts Utf8 Unicode GoTime Strconv Display Journal Lexer Parser Account Reporting Budget FlatSpec FlatFacts Spec TextSpec Sample TreeSpec ReportSpec CalendarFacts ParseRel CmdSpec StreamFacts CmdFacts Cmd BalanceFacts PropsCmd PropsBalance PropsStats BudgetSpec BudgetRun PropsBudget PropsAgain PropsJoin PropsJoinMore.

Lemma range_split : forall E O1 O2 O us, Forall (fun u => (within E O (u_n u) (t_date (u_txn u)) <->
    within E O1 (u_n u) (t_date (u_txn u)) \/ within E O2 (u_n u) (t_date (u_txn u)))) us ->
  forall s1 s2 s, in_range E O1 us s1 -> in_range E O2 us s2 -> in_range E O us s -> forall u, In u s <-> In u s1 \/ In u s2.
Proof.
  intros E O1 O2 O us F. induction F as [|u us W F IH]; intros s1 s2 s P1 P2 P v.
  - inversion P1; inversion P2; inversion P. cbn. tauto.
  - inversion P1; inversion P2; inversion P; subst; try tauto;
      match goal with A : in_range E O1 us ?x, B : in_range E O2 us ?y, C : in_range E O us ?z |- _ => pose proof (IH x y z A B C v) end; cbn; tauto.
Qed.

(** Moves of a history: those assigned, whatever the dates, and the others. *)
Lemma activity_kind : forall t ps, Forall (fun m => is_assign m = false) (activity t ps).
Proof.
  intros t ps. apply Forall_forall. intros m I. unfold activity in I. apply in_flat_map in I as (p & _ & I).
  destruct (list_str_dec _ _); [destruct I as [<-|[]]; reflexivity|]. destruct (list_str_dec _ _); [destruct I as [<-|[]]; reflexivity|destruct I].
Qed.
Lemma allocations_kind : forall pt, Forall (fun m => is_assign m = true) (allocations pt).
Proof. intro pt. apply Forall_forall. intros m I. unfold allocations in I. apply in_map_iff in I as (p & <- & _). reflexivity. Qed.

Lemma history_split : forall E O1 O2 O fs,
  (forall n d, (within E O n d <-> within E O1 n d \/ within E O2 n d) /\ ~ (within E O1 n d /\ within E O2 n d)) ->
  forall evs n l1 l2 l, history E O1 fs n evs l1 -> history E O2 fs n evs l2 -> history E O fs n evs l ->
  exists A T1 T2, Permutation l1 (A ++ T1) /\ Permutation l2 (A ++ T2) /\ Permutation l (A ++ T1 ++ T2) /\
    Forall (fun m => is_assign m = true) A /\ Forall (fun m => is_assign m = false) (T1 ++ T2).
Proof.
  intros E O1 O2 O fs W evs. induction evs as [|e evs IH]; intros n l1 l2 l H1 H2 H.
  - inversion H1; inversion H2; inversion H; subst. exists [], [], []. repeat constructor.
  - destruct e as [t p|pt p].
    + pose proof (W n (t_date t)) as [Wi Wn].
      inversion H1 as [| |? ? ? ? ? No1 K1|? ? ? ps1 ? ? W1 Hh1 Pm1 Wh1 K1]; subst; inversion H2 as [| |? ? ? ? ? No2 K2|? ? ? ps2 ? ? W2 Hh2 Pm2 Wh2 K2]; subst;
        inversion H as [| |? ? ? ? ? No K|? ? ? ps ? ? W0 Hh0 Pm0 Wh0 K]; subst; destruct (IH _ _ _ _ K1 K2 K) as (A & T1 & T2 & Q1 & Q2 & Q & FA & FT).
      * exists A, T1, T2. auto.
      * exfalso. destruct No1 as [No1|No1]; [|congruence]. destruct No2 as [No2|No2]; [|congruence]. tauto.
      * exfalso. destruct No as [No|No]; [tauto|congruence].
      * exists A, T1, (activity t ps ++ T2). split; [exact Q1|]. split; [|split; [|split; [exact FA|]]].
        -- rewrite Q2, (activity_perm t ps2 ps) by (now rewrite Pm2). apply Permutation_app_swap_app.
        -- rewrite Q, (Permutation_app_swap_app T1 (activity t ps) T2). apply Permutation_app_swap_app.
        -- apply Forall_app in FT as [F1 F2]. apply Forall_app. split; [exact F1|]. apply Forall_app. split; [apply activity_kind|exact F2].
      * exfalso. destruct No as [No|No]; [tauto|congruence].
      * exists A, (activity t ps ++ T1), T2. split; [|split; [exact Q2|split; [|split; [exact FA|]]]].
        -- rewrite Q1, (activity_perm t ps1 ps) by (now rewrite Pm1). apply Permutation_app_swap_app.
        -- rewrite Q, <- app_assoc. apply Permutation_app_swap_app.
        -- rewrite <- app_assoc. apply Forall_app. split; [apply activity_kind|exact FT].
      * exfalso. tauto.
      * exfalso. tauto.
    + inversion H1 as [|? ? ? ? ? K1| |]; subst. inversion H2 as [|? ? ? ? ? K2| |]; subst. inversion H as [|? ? ? ? ? K| |]; subst.
      destruct (IH _ _ _ _ K1 K2 K) as (A & T1 & T2 & Q1 & Q2 & Q & FA & FT).
      exists (allocations pt ++ A), T1, T2. rewrite <- !app_assoc. repeat (split; [now apply Permutation_app_head|]).
      split; [|exact FT]. apply Forall_app. split; [apply allocations_kind|exact FA].
Qed.

Lemma sum_none : forall f y m l, Forall (fun x => f x = false) l -> sum_of f (month y m l) = 0.
Proof.
  intros f y m l F. unfold sum_of. assert (filter f (month y m l) = []) as ->; [|reflexivity].
  unfold month. induction F as [|x l H F IH]; [reflexivity|]. cbn [filter]. destruct (in_month y m x); [|exact IH]. cbn [filter]. now rewrite H.
Qed.

Lemma history_exists : forall E O fs, sane_clock E -> orders E -> sorts E -> filters_for E (o_args O) fs -> CmdSpec.readable E O ->
  exists log, history E O fs 0 (fst (stream E O)) log.
Proof.
  intros E O fs C Or So F R. destruct (C42_print E O fs C Or So F) as [K _]. destruct (K R) as (sel & _ & P & _).
  revert P. generalize 0%nat. generalize (fst (stream E O)). clear. intro evs. revert sel.
  induction evs as [|[t p|pt p] evs IH]; intros sel n P.
  - exists []. constructor.
  - cbn [txns] in P. inversion P as [|? ? ? No Q|? ? ? ps W H Pm Wh Q]; subst; destruct (IH _ _ Q) as [log L].
    + exists log. now apply HistNot.
    + exists (activity t ps ++ log). now apply HistTxn.
  - cbn [txns] in P. destruct (IH _ _ P) as [log L]. exists (allocations pt ++ log). now apply HistBudget.
Qed.

Section Ranges.
Variable E : env.
Variable O : opts.
Variables a b c : str.
Variables da db dc : date.
Variable fs : list filter_.
Hypothesis Clock : sane_clock E.
Hypothesis Orders : orders E.
Hypothesis Filters : filters_for E (o_args O) fs.
Hypothesis Current : o_current O = false.
Hypothesis Readable : snd (stream E O) = SOk.
Hypothesis Flags : forall n, flag_means (e_year E n) a da /\ flag_means (e_year E n) b db /\ flag_means (e_year E n) c dc.
Hypothesis Order : e_local E da <= e_local E db <= e_local E dc.
Hypothesis Positive : 0 < e_local E db.
Let O1 := with_dates O a b.
Let O2 := with_dates O b c.
Let O3 := with_dates O a c.

Lemma parts_meet : forall n d, (within E O3 n d <-> within E O1 n d \/ within E O2 n d) /\ ~ (within E O1 n d /\ within E O2 n d).
Proof. intros n d. apply (ranges_meet E O a b c da db dc n d Clock Current); auto; intro k; apply Flags. Qed.

Lemma parts_readable : CmdSpec.readable E O1 /\ CmdSpec.readable E O2 /\ CmdSpec.readable E O3.
Proof.
  assert (R : forall x y dx dy, (forall n, flag_means (e_year E n) x dx) -> (forall n, flag_means (e_year E n) y dy) -> CmdSpec.readable E (with_dates O x y)).
  { intros x y dx dy Hx Hy. split; [exact Readable|]. apply Forall_forall. intros u _. split; right; right; [exists dx; apply Hx|exists dy; apply Hy]. }
  split; [apply (R a b da db)|split; [apply (R b c db dc)|apply (R a c da dc)]]; intro k; apply Flags.
Qed.

(** What accounts or payees lists over both ranges is what it lists over either. *)
Theorem C93_listings : Forall (fun x => e_re_ok E (case_text E x) = true) (o_args O) -> forall cmd, cmd = accounts_cmd \/ cmd = payees_cmd ->
  exists names1 names2 names, cmd E O1 = Outcome (lines names1) SOk /\ cmd E O2 = Outcome (lines names2) SOk /\
    cmd E O3 = Outcome (lines names) SOk /\ ascending names /\ forall x, In x names <-> In x names1 \/ In x names2.
Proof.
  intros Ok cmd Hc. destruct parts_readable as (R1 & R2 & R3).
  assert (Sp : forall s1 s2 s, in_range E O1 (txns 0 (fst (stream E O))) s1 -> in_range E O2 (txns 0 (fst (stream E O))) s2 ->
    in_range E O3 (txns 0 (fst (stream E O))) s -> forall u, In u s <-> In u s1 \/ In u s2).
  { apply range_split. apply Forall_forall. intros u _. apply parts_meet. }
  destruct Hc as [->| ->].
  - destruct (proj1 (C40_accounts E O1 fs Clock Orders Filters) R1) as (s1 & n1 & P1 & Q1 & A1 & H1).
    destruct (proj1 (C40_accounts E O2 fs Clock Orders Filters) R2) as (s2 & n2 & P2 & Q2 & A2 & H2).
    destruct (proj1 (C40_accounts E O3 fs Clock Orders Filters) R3) as (s3 & n3 & P3 & Q3 & A3 & H3).
    exists n1, n2, n3. split; [exact Q1|]. split; [exact Q2|]. split; [exact Q3|]. split; [exact A3|].
    intro x. rewrite H1, H2, H3. pose proof (Sp _ _ _ P1 P2 P3) as S. unfold uses. split.
    + intros [(u & p & I & J) K]. apply S in I as [I|I]; [left|right]; eauto 6.
    + intros [[(u & p & I & J) K]|[(u & p & I & J) K]]; (split; [|exact K]); exists u, p; (split; [apply S; auto|exact J]).
  - destruct (proj1 (C41_payees E O1 fs Clock Orders Filters Ok) R1) as (s1 & n1 & P1 & Q1 & A1 & H1).
    destruct (proj1 (C41_payees E O2 fs Clock Orders Filters Ok) R2) as (s2 & n2 & P2 & Q2 & A2 & H2).
    destruct (proj1 (C41_payees E O3 fs Clock Orders Filters Ok) R3) as (s3 & n3 & P3 & Q3 & A3 & H3).
    exists n1, n2, n3. split; [exact Q1|]. split; [exact Q2|]. split; [exact Q3|]. split; [exact A3|].
    intro x. rewrite H1, H2, H3. pose proof (Sp _ _ _ P1 P2 P3) as S. unfold pays. split.
    + intros [(u & I & J) K]. apply S in I as [I|I]; [left|right]; eauto 6.
    + intros [[(u & I & J) K]|[(u & I & J) K]]; (split; [|exact K]); exists u; (split; [apply S; auto|exact J]).
Qed.

Lemma span_permuted : forall s1 s2 s r1 r2 r,
  Permutation (selected s) (selected s1 ++ selected s2) ->
  (s1 = [] -> r1 = None) -> (s1 <> [] -> exists f l, r1 = Some (f, l) /\ earliest s1 f /\ latest s1 l) ->
  (s2 = [] -> r2 = None) -> (s2 <> [] -> exists f l, r2 = Some (f, l) /\ earliest s2 f /\ latest s2 l) ->
  (s = [] -> r = None) -> (s <> [] -> exists f l, r = Some (f, l) /\ earliest s f /\ latest s l) ->
  (forall t, In t (selected s) -> real_date (t_date t)) -> span r1 r2 r.
Proof.
  intros s1 s2 s r1 r2 r P N1 D1 N2 D2 N D R.
  assert (Q : selected (s1 ++ s2) = selected s1 ++ selected s2) by (unfold selected; apply map_app).
  assert (M : forall d, In d (map t_date (selected (s1 ++ s2))) <-> In d (map t_date (selected s))).
  { intro d. rewrite Q. split; apply Permutation_in; [symmetry|]; now apply Permutation_map. }
  assert (X : s = [] <-> s1 ++ s2 = []).
  { split; intro H.
    - rewrite H in P. apply Permutation_nil in P. rewrite <- Q in P. destruct (s1 ++ s2); [reflexivity|discriminate].
    - rewrite <- Q, H in P. apply Permutation_sym, Permutation_nil in P. destruct s; [reflexivity|discriminate]. }
  apply (span_joined s1 s2 (s1 ++ s2)); auto.
  - intro H. apply N, X, H.
  - intro H. destruct D as (f & l & Er & [I1 I2] & [J1 J2]); [intro Y; now apply H, X|]. exists f, l. split; [exact Er|]. split; split.
    + now apply M. + intros d' K. apply I2. now apply M. + now apply M. + intros d' K. apply J2. now apply M.
  - intros t I. apply R. rewrite Q in I. eapply Permutation_in; [symmetry; exact P|exact I].
Qed.

Hypothesis Sorts : sorts E.

Lemma parts_picked : exists s1 s2 s, picks E O1 fs (txns 0 (fst (stream E O))) s1 /\ picks E O2 fs (txns 0 (fst (stream E O))) s2 /\
  picks E O3 fs (txns 0 (fst (stream E O))) s.
Proof.
  destruct parts_readable as (R1 & R2 & R3).
  destruct (proj1 (C42_print E O1 fs Clock Orders Sorts Filters) R1) as (s1 & _ & P1 & _).
  destruct (proj1 (C42_print E O2 fs Clock Orders Sorts Filters) R2) as (s2 & _ & P2 & _).
  destruct (proj1 (C42_print E O3 fs Clock Orders Sorts Filters) R3) as (s3 & _ & P3 & _). eauto 7.
Qed.

(** stats over both ranges counts the transactions of both, the accounts and payees
    of either, and spans both. *)
Theorem C93_stats :
  (r_status (stats_cmd E O3) = SOk <-> r_status (stats_cmd E O1) = SOk /\ r_status (stats_cmd E O2) = SOk) /\
  (r_status (stats_cmd E O3) = SOk ->
   exists n1 n2 accs1 accs2 accs pays1 pays2 pays r1 r2 r,
     tells E (r_out (stats_cmd E O1)) n1 accs1 pays1 r1 /\ tells E (r_out (stats_cmd E O2)) n2 accs2 pays2 r2 /\
     tells E (r_out (stats_cmd E O3)) (n1 + n2) accs pays r /\
     (forall x, In x accs <-> In x accs1 \/ In x accs2) /\ (forall x, In x pays <-> In x pays1 \/ In x pays2) /\
     (Forall (fun u => t_date (u_txn u) <> Date 1 1 1) (txns 0 (fst (stream E O))) -> span r1 r2 r)).
Proof.
  destruct parts_readable as (R1 & R2 & R3). destruct parts_picked as (x1 & x2 & x & X1 & X2 & X).
  assert (W : Forall (fun u => (within E O3 (u_n u) (t_date (u_txn u)) <->
    within E O1 (u_n u) (t_date (u_txn u)) \/ within E O2 (u_n u) (t_date (u_txn u))) /\
    ~ (within E O1 (u_n u) (t_date (u_txn u)) /\ within E O2 (u_n u) (t_date (u_txn u)))) (txns 0 (fst (stream E O)))).
  { apply Forall_forall. intros u _. apply parts_meet. }
  assert (B : r_status (stats_cmd E O3) = SOk <-> r_status (stats_cmd E O1) = SOk /\ r_status (stats_cmd E O2) = SOk).
  { rewrite (C44_completes E O3 fs Clock Orders Filters), (C44_completes E O1 fs Clock Orders Filters), (C44_completes E O2 fs Clock Orders Filters).
    unfold no_income_without_amount. split.
    - intros [_ (s & P & H)]. pose proof (taken_split E O1 O2 O3 fs _ W _ _ _ X1 X2 P) as T.
      pose proof (Permutation_Forall T H) as H'. apply Forall_app in H' as [H1 H2]. split; (split; [assumption|]); eauto.
    - intros [[_ (s1 & P1 & H1)] [_ (s2 & P2 & H2)]]. split; [exact R3|]. exists x. split; [exact X|].
      pose proof (taken_split E O1 O2 O3 fs _ W _ _ _ P1 P2 X) as T. eapply Permutation_Forall; [symmetry; exact T|]. apply Forall_app. auto. }
  split; [exact B|]. intro H3. pose proof (proj1 B H3) as [H1 H2].
  destruct (stats_tells E O3 fs Clock Orders Filters H3) as (_ & s & accs & pays & r & P & T & A & Y & N & D).
  destruct (stats_tells E O1 fs Clock Orders Filters H1) as (_ & s1 & accs1 & pays1 & r1 & P1 & T1 & A1 & Y1 & N1 & D1).
  destruct (stats_tells E O2 fs Clock Orders Filters H2) as (_ & s2 & accs2 & pays2 & r2 & P2 & T2 & A2 & Y2 & N2 & D2).
  pose proof (taken_split E O1 O2 O3 fs _ W _ _ _ P1 P2 P) as Ta. pose proof (picks_split E O1 O2 O3 fs _ W _ _ _ P1 P2 P) as Se.
  exists (length s1), (length s2), accs1, accs2, accs, pays1, pays2, pays, r1, r2, r.
  split; [exact T1|]. split; [exact T2|].
  assert (Ls : length s = (length s1 + length s2)%nat).
  { pose proof (Permutation_length Se) as L. unfold selected in L. rewrite app_length, !map_length in L. exact L. }
  split; [rewrite <- Ls; exact T|]. split; [|split].
  - intro z. rewrite A, A1, A2. split.
    + intros (q & I & Q). apply (Permutation_in _ Ta) in I. apply in_app_iff in I as [I|I]; eauto.
    + intros [(q & I & Q)|(q & I & Q)]; exists q; (split; [|exact Q]); apply (Permutation_in _ (Permutation_sym Ta)); apply in_app_iff; auto.
  - intro z. rewrite Y, Y1, Y2. split.
    + intros (q & I & Q). apply (Permutation_in _ Se) in I. apply in_app_iff in I as [I|I]; eauto.
    + intros [(q & I & Q)|(q & I & Q)]; exists q; (split; [|exact Q]); apply (Permutation_in _ (Permutation_sym Se)); apply in_app_iff; auto.
  - intro Fz.
    assert (Z : Forall (fun t => t_date t <> Date 1 1 1) (selected s)).
    { clear - P Fz. change (stream E O3) with (stream E O) in P. induction P; [constructor|inversion Fz; auto|]. inversion Fz; subst. constructor; auto. }
    pose proof (Permutation_Forall Se Z) as Z'. apply Forall_app in Z' as [Z1 Z2].
    apply (span_permuted s1 s2 s); auto. intros t I. exact (selected_dated E O3 fs s t P I).
Qed.

(** budget over both ranges: what is spent and earned in a month is the sum; what is
    assigned is the same in all, dates not mattering to budget entries. *)
Theorem C93_budget :
  (r_status (budget_cmd E O3) = SOk <-> r_status (budget_cmd E O1) = SOk /\ r_status (budget_cmd E O2) = SOk) /\
  (r_status (budget_cmd E O3) = SOk ->
   exists log1 log2 log, budget_tells E O1 fs log1 /\ budget_tells E O2 fs log2 /\ budget_tells E O3 fs log /\
     forall y m, earned (month y m log) = earned (month y m log1) + earned (month y m log2) /\
       forall q, spent q (month y m log) = spent q (month y m log1) + spent q (month y m log2) /\
         assigned q (month y m log) = assigned q (month y m log1) /\ assigned q (month y m log) = assigned q (month y m log2)).
Proof.
  destruct parts_readable as (R1 & R2 & R3).
  destruct (history_exists E O1 fs Clock Orders Sorts Filters R1) as [x1 X1]. destruct (history_exists E O2 fs Clock Orders Sorts Filters R2) as [x2 X2].
  destruct (history_exists E O3 fs Clock Orders Sorts Filters R3) as [x X].
  pose proof (C48_report E O1 fs Clock Orders Filters) as [K1 L1]. pose proof (C48_report E O2 fs Clock Orders Filters) as [K2 L2].
  pose proof (C48_report E O3 fs Clock Orders Filters) as [K L].
  assert (B : r_status (budget_cmd E O3) = SOk <-> r_status (budget_cmd E O1) = SOk /\ r_status (budget_cmd E O2) = SOk).
  { rewrite K, K1, K2. split.
    - intros [_ (l & H & P)]. destruct (history_split E O1 O2 O3 fs parts_meet _ _ _ _ _ X1 X2 H) as (A & T1 & T2 & Q1 & Q2 & Q & _).
      pose proof (Permutation_Forall Q P) as P'. apply Forall_app in P' as [PA PT]. apply Forall_app in PT as [PT1 PT2].
      split; (split; [assumption|]); [exists x1|exists x2]; (split; [assumption|]); (eapply Permutation_Forall; [symmetry; eassumption|]; apply Forall_app; auto).
    - intros [[_ (l1 & H1 & P1)] [_ (l2 & H2 & P2)]]. split; [exact R3|]. exists x. split; [exact X|].
      destruct (history_split E O1 O2 O3 fs parts_meet _ _ _ _ _ H1 H2 X) as (A & T1 & T2 & Q1 & Q2 & Q & _).
      pose proof (Permutation_Forall Q1 P1) as P1'. pose proof (Permutation_Forall Q2 P2) as P2'. apply Forall_app in P1' as [PA PT1]. apply Forall_app in P2' as [_ PT2].
      eapply Permutation_Forall; [symmetry; exact Q|]. repeat (apply Forall_app; split); assumption. }
  split; [exact B|]. intro H3. pose proof (proj1 B H3) as [H1 H2].
  destruct (L1 H1) as (l1 & ms1 & bs1 & Hi1 & Y1). destruct (L2 H2) as (l2 & ms2 & bs2 & Hi2 & Y2). destruct (L H3) as (l & ms & bs & Hi & Y).
  exists l1, l2, l. split; [exists ms1, bs1; auto|]. split; [exists ms2, bs2; auto|]. split; [exists ms, bs; auto|].
  destruct (history_split E O1 O2 O3 fs parts_meet _ _ _ _ _ Hi1 Hi2 Hi) as (A & T1 & T2 & Q1 & Q2 & Q & FA & FT).
  apply Forall_app in FT as [FT1 FT2]. intros y m.
  assert (Sum : forall f, sum_of f (month y m l) = sum_of f (month y m A) + sum_of f (month y m T1) + sum_of f (month y m T2) /\
    sum_of f (month y m l1) = sum_of f (month y m A) + sum_of f (month y m T1) /\ sum_of f (month y m l2) = sum_of f (month y m A) + sum_of f (month y m T2)).
  { intro f. split; [|split; [exact (sum_joined f y m _ _ _ Q1)|exact (sum_joined f y m _ _ _ Q2)]].
    rewrite (sum_joined f y m _ _ _ Q), (sum_joined f y m (T1 ++ T2) T1 T2) by reflexivity. lia. }
  assert (NoA : forall f, (forall x, is_assign x = true -> f x = false) -> sum_of f (month y m A) = 0).
  { intros f Hf. apply sum_none. eapply Forall_impl; [|exact FA]. exact Hf. }
  assert (NoT : forall f T, Forall (fun m => is_assign m = false) T -> (forall x, is_assign x = false -> f x = false) -> sum_of f (month y m T) = 0).
  { intros f T FT Hf. apply sum_none. eapply Forall_impl; [|exact FT]. exact Hf. }
  split.
  - unfold earned. destruct (Sum is_earn) as (S & S1 & S2). rewrite S, S1, S2, NoA; [lia|].
    intros z Hz. unfold is_assign in Hz. unfold is_earn. now destruct (mv_type z).
  - intro q. split.
    + unfold spent. destruct (Sum (fun m => is_spend m && concerns q m)) as (S & S1 & S2). rewrite S, S1, S2, NoA; [lia|].
      intros z Hz. unfold is_assign in Hz. unfold is_spend. now destruct (mv_type z).
    + unfold assigned. destruct (Sum (fun m => is_assign m && concerns q m)) as (S & S1 & S2). rewrite S, S1, S2.
      rewrite (NoT _ T1 FT1), (NoT _ T2 FT2); [lia| |]; intros z ->; reflexivity.
Qed.
End Ranges.

(** ** C72: accounts and payees with more arguments *)
Theorem C72_listings : forall E O A B fs gs, sane_clock E -> orders E -> A <> [] -> B <> [] ->
  filters_for E A fs -> filters_for E B gs -> CmdSpec.readable E O -> Forall (fun a => e_re_ok E (case_text E a) = true) (A ++ B) ->
  forall cmd, cmd = accounts_cmd \/ cmd = payees_cmd ->
  exists namesA namesB names, cmd E (with_args O A) = Outcome (lines namesA) SOk /\ cmd E (with_args O B) = Outcome (lines namesB) SOk /\
    cmd E (with_args O (A ++ B)) = Outcome (lines names) SOk /\ ascending names /\ forall x, In x names <-> In x namesA \/ In x namesB.
Proof.
  intros E O A B fs gs C Or NA NB FA FB R Ok cmd Hc.
  assert (Nf : fs <> []) by (intros ->; destruct FA as [FA _]; inversion FA; subst; contradiction).
  assert (Ng : gs <> []) by (intros ->; destruct FB as [FB _]; inversion FB; subst; contradiction).
  assert (F : filters_for E (A ++ B) (fs ++ gs)).
  { destruct FA, FB. split; [now apply Forall2_app|now apply Forall_app]. }
  assert (Nfg : fs ++ gs <> []) by (destruct fs; [contradiction|discriminate]).
  assert (NAB : A ++ B <> []) by (destruct A; [contradiction|discriminate]).
  pose proof (proj1 (Forall_app _ _ _) Ok) as [OkA OkB].
  assert (Same : forall D D' us s s', in_range E (with_args O D) us s -> in_range E (with_args O D') us s' -> s = s').
  { intros D D' us s s' H. revert s'. induction H as [|u us s W H IH|u us s W H IH]; intros s' H'; inversion H' as [|? ? ? W' K|? ? ? W' K]; subst; auto; try contradiction.
    f_equal. auto. }
  destruct Hc as [->| ->].
  - destruct (proj1 (C40_accounts E (with_args O A) fs C Or FA) R) as (s1 & n1 & P1 & Q1 & A1 & H1).
    destruct (proj1 (C40_accounts E (with_args O B) gs C Or FB) R) as (s2 & n2 & P2 & Q2 & A2 & H2).
    destruct (proj1 (C40_accounts E (with_args O (A ++ B)) _ C Or F) R) as (s3 & n3 & P3 & Q3 & A3 & H3).
    pose proof (Same _ _ _ _ _ P1 P2) as <-. pose proof (Same _ _ _ _ _ P1 P3) as <-.
    exists n1, n2, n3. split; [exact Q1|]. split; [exact Q2|]. split; [exact Q3|]. split; [exact A3|].
    intro x. rewrite H1, H2, H3. split.
    + intros [K [N|(f & I & M)]]; [contradiction|]. apply in_app_iff in I as [I|I]; [left|right]; (split; [exact K|]); right; eauto.
    + intros [[K [N|(f & I & M)]]|[K [N|(f & I & M)]]]; try contradiction; (split; [exact K|]); right; exists f; (split; [apply in_app_iff; auto|exact M]).
  - destruct (proj1 (C41_payees E (with_args O A) fs C Or FA OkA) R) as (s1 & n1 & P1 & Q1 & A1 & H1).
    destruct (proj1 (C41_payees E (with_args O B) gs C Or FB OkB) R) as (s2 & n2 & P2 & Q2 & A2 & H2).
    destruct (proj1 (C41_payees E (with_args O (A ++ B)) _ C Or F Ok) R) as (s3 & n3 & P3 & Q3 & A3 & H3).
    pose proof (Same _ _ _ _ _ P1 P2) as <-. pose proof (Same _ _ _ _ _ P1 P3) as <-.
    exists n1, n2, n3. split; [exact Q1|]. split; [exact Q2|]. split; [exact Q3|]. split; [exact A3|].
    cbn [with_args o_args] in H1, H2, H3. intro x. rewrite H1, H2, H3. split.
    + intros [K [N|(f & I & M)]]; [contradiction|]. apply in_app_iff in I as [I|I]; [left|right]; (split; [exact K|]); right; eauto.
    + intros [[K [N|(f & I & M)]]|[K [N|(f & I & M)]]]; try contradiction; (split; [exact K|]); right; exists f; (split; [apply in_app_iff; auto|exact M]).
Qed.
Example C72_listings_example : 
  let names cmd args := r_out (cmd (env1 [(lit "j", text_same)]) (with_args (opts0 "j") args)) in
  exists a b, names accounts_cmd [lit "x"] = lines a /\ names accounts_cmd [lit "z"] = lines b /\ a <> [] /\ b <> [] /\
    names accounts_cmd [lit "x"; lit "z"] = lines (a ++ b).
Proof. exists [lit "x"], [lit "z"]. vm_compute. repeat split; discriminate. Qed.

(** ** C41: an argument of payees that is no regular expression is reported (the
    first of them), and nothing is listed *)
Theorem C41_bad_argument : forall E O fs before a after, sane_clock E -> orders E -> filters_for E (o_args O) fs -> CmdSpec.readable E O ->
  o_args O = before ++ a :: after -> Forall (fun b => e_re_ok E (case_text E b) = true) before -> e_re_ok E (case_text E a) = false ->
  payees_cmd E O = Outcome [] (SErr (ERegexp (case_text E a))).
Proof.
  intros E O fs before a after C Or F R I G Bad. apply makeFilters_spec in F. unfold payees_cmd, with_filters. rewrite F.
  pose proof (run_readable E O (list str) payees_handler (fun _ s => h_out s = []) (HS 0 [] []) C eq_refl) as K.
  fold (payees_run E O) in K. unfold finish. destruct (payees_run E O) as [s r]. destruct K as [T K]; [reflexivity|auto| |].
  - intros sel s1 u H. eexists. split; [reflexivity|]. auto.
  - apply T in R. subst r. destruct (K eq_refl) as (_ & _ & Ho). unfold payees_prepare.
    assert (Fd : find (fun r => negb (e_re_ok E r)) (map (smart_case (e_unicode E)) (before ++ a :: after)) = Some (case_text E a)).
    { clear I. change (e_re_ok E (smart_case (e_unicode E) a) = false) in Bad. induction G as [|b before Gb G IH]; cbn [app map find].
      - now rewrite Bad.
      - change (e_re_ok E (smart_case (e_unicode E) b) = true) in Gb. now rewrite Gb. }
    rewrite I. destruct (before ++ a :: after) as [|x args]; [discriminate Fd|]. rewrite Fd. cbn. now rewrite Ho.
Qed.
(** A machine whose engine takes everything but "@b". *)
Definition picky : env :=
  let e := env1 [(lit "j", text_same)] in
  Env (e_unicode e) (e_fs e) (e_depth e) (e_ledger_file e) (fun r => negb (str_eqb r (lit "(?i)@b"))) (e_re_match e) (e_year e) (e_tomorrow e) (e_local e)
    (e_order e) (e_tree_order e) (e_sort e) (e_now e).
Example C41_bad_example : let O := with_args (opts0 "j") [lit "@b"] in
  (exists fs, filters_for picky (o_args O) fs) /\ CmdSpec.readable picky O /\ e_re_ok picky (case_text picky (lit "@b")) = false /\
  payees_cmd picky O = Outcome [] (SErr (ERegexp (lit "(?i)@b"))).
Proof.
  split; [|split; [|split; vm_compute; reflexivity]].
  - eexists [_]. split; repeat constructor.
  - apply readable_noflags. vm_compute. reflexivity.
Qed.

(** ** C93: an example with something in either range *)
Definition text_ranges : str := lit "2021-02-10 A
    Expenses:Food    $1
    Cash
2021-03-02 B
    Expenses:Fun    $3
    Income:Pay    $-5
    Cash

~ 2021-03
    Food    $7
".
Example C93_example : let E := env1 [(lit "j", text_ranges)] in let O := opts0 "j" in
  (forall n, flag_means (e_year E n) (lit "2021-02") (Date 2021 2 1) /\ flag_means (e_year E n) (lit "2021-03-02") (Date 2021 3 2) /\
     flag_means (e_year E n) (lit "2022") (Date 2022 1 1)) /\ snd (stream E O) = SOk /\
  e_local E (Date 2021 2 1) <= e_local E (Date 2021 3 2) <= e_local E (Date 2022 1 1) /\ 0 < e_local E (Date 2021 3 2) /\
  r_status (stats_cmd E (with_dates O (lit "2021-02") (lit "2022"))) = SOk /\ r_status (budget_cmd E (with_dates O (lit "2021-02") (lit "2022"))) = SOk /\
  r_out (payees_cmd E (with_dates O (lit "2021-02") (lit "2021-03-02"))) = lines [lit "A"] /\
  r_out (payees_cmd E (with_dates O (lit "2021-03-02") (lit "2022"))) = lines [lit "B"] /\
  r_out (payees_cmd E (with_dates O (lit "2021-02") (lit "2022"))) = lines [lit "A"; lit "B"].
Proof.
  intros E O. split; [|vm_compute; repeat split; discriminate]. intro n.
  split; [exact (proj1 (C73_example n))|]. split; [exact (proj1 (proj2 (C73_example n)))|exact (proj1 (proj2 (proj2 (C73_example n))))].
Qed.
