(** * C132: listings depend only on the names used; C133: a journal entered twice *)
From Verif Require Import Base BaseFacts Utf8 Unicode GoTime Strconv Display Journal JournalFacts Lexer Parser ParserFacts Account Reporting Budget Cmd Spec TextSpec
  TreeSpec TreeFacts ReportSpec CmdSpec CmdFacts FlatSpec LexSpec Sample PropsCmd PropsBalance PropsReread PropsJoin PropsStats BudgetSpec PropsJoinMore.

(** What the listings look at of two runs. *)
Section Listed.
Variables E E' : env.
Variables O O' : opts.
Variable fs : list filter_.
Hypothesis Clock : sane_clock E.
Hypothesis Clock' : sane_clock E'.
Hypothesis Orders : orders E.
Hypothesis Orders' : orders E'.
Hypothesis Args : o_args O' = o_args O.
Hypothesis Filters : filters_for E (o_args O) fs.
Hypothesis Filters' : filters_for E' (o_args O) fs.
Hypothesis Match : forall r s, e_re_match E' r s = e_re_match E r s.
Hypothesis Read : CmdSpec.readable E O.
Hypothesis Read' : CmdSpec.readable E' O'.
Variables sel sel' : list used.
Hypothesis Range : in_range E O (txns 0 (fst (stream E O))) sel.
Hypothesis Range' : in_range E' O' (txns 0 (fst (stream E' O'))) sel'.

Lemma lines_inj : forall l l', lines l = lines l' -> l = l'.
Proof. induction l as [|x l IH]; intros [|y l'] H; try discriminate; [reflexivity|]. cbn in H. injection H as H1 H2. apply app_inj_tail in H1 as [-> _]. f_equal. now apply IH. Qed.
Lemma ascending_listed : forall l l', ascending l -> ascending l' -> (Outcome (lines l') SOk = Outcome (lines l) SOk <-> forall x, In x l' <-> In x l).
Proof.
  intros l l' A A'. split; [intros H x; injection H as H; now rewrite (lines_inj _ _ H)|]. intro H. now rewrite (ascending_same l' l A' A H).
Qed.

(** accounts prints the same exactly when the same accounts are named on the days
    asked for (of those the arguments ask for). *)
Theorem C132_accounts : accounts_cmd E' O' = accounts_cmd E O <->
  forall a, fs = [] \/ (exists f, In f fs /\ e_re_match E (f_regex f) a = true) -> (uses sel' a <-> uses sel a).
Proof.
  destruct (C40_accounts E O fs Clock Orders Filters) as [K _]. destruct (K Read) as (s & l & P & -> & A & H).
  assert (F' : filters_for E' (o_args O') fs) by (now rewrite Args).
  destruct (C40_accounts E' O' fs Clock' Orders' F') as [K' _]. destruct (K' Read') as (s' & l' & P' & -> & A' & H').
  rewrite (range_fun _ _ _ _ _ P Range) in *. rewrite (range_fun _ _ _ _ _ P' Range') in *. rewrite (ascending_listed l l' A A').
  split; [intros Q a M|intros Q a; rewrite H, H'].
  - specialize (Q a). rewrite H, H' in Q. setoid_rewrite Match in Q. tauto.
  - setoid_rewrite Match. split; intros [U M]; (split; [now apply (Q a M)|exact M]).
Qed.

(** payees likewise. *)
Theorem C132_payees : e_unicode E' = e_unicode E -> Forall (fun a => e_re_ok E (case_text E a) = true /\ e_re_ok E' (case_text E a) = true) (o_args O) ->
  (payees_cmd E' O' = payees_cmd E O <->
   forall x, o_args O = [] \/ (exists a, In a (o_args O) /\ e_re_match E (case_text E a) x = true) -> (pays sel' x <-> pays sel x)).
Proof.
  intros Un Ro. assert (F' : filters_for E' (o_args O') fs) by (now rewrite Args).
  assert (Ct : forall a, case_text E' a = case_text E a) by (intro a; unfold case_text; now rewrite Un).
  destruct (C41_payees E O fs Clock Orders Filters) as [K _]; [eapply Forall_impl; [|exact Ro]; intros a X; apply X|].
  destruct (C41_payees E' O' fs Clock' Orders' F') as [K' _]; [rewrite Args; eapply Forall_impl; [|exact Ro]; intros a X; cbn beta; rewrite Ct; apply X|].
  destruct (K Read) as (s & l & P & -> & A & H). destruct (K' Read') as (s' & l' & P' & -> & A' & H').
  rewrite (range_fun _ _ _ _ _ P Range) in *. rewrite (range_fun _ _ _ _ _ P' Range') in *. rewrite (ascending_listed l l' A A'). rewrite Args in H'.
  setoid_rewrite Match in H'. setoid_rewrite Ct in H'.
  split; [intros Q a M|intros Q a; rewrite H, H'].
  - specialize (Q a). rewrite H, H' in Q. tauto.
  - split; intros [U M]; (split; [now apply (Q a M)|exact M]).
Qed.
End Listed.

(** ** A journal entered twice *)
Definition doubled (x : option Z) : option Z := option_map (fun v => wrap64 (2 * v)) x.

Section Twice.
Variable E : env.
Variable O : opts.
Variables p a : str.
Hypothesis Path : journal_path E O = Some p.
Hypothesis Start : line_start a.
Let E1 := holding E p a.
Let E2 := holding E p (a ++ LF :: a).
Hypothesis Clock : sane_clock E.
Hypothesis Orders : orders E.
Hypothesis Sorts : sorts E.
Hypothesis Steady : steady E.
Variable fs : list filter_.
Hypothesis Filters : filters_for E (o_args O) fs.

(** Names are listed once; *)
Theorem C133_listings : Forall (fun x => e_re_ok E (case_text E x) = true) (o_args O) -> forall cmd, cmd = accounts_cmd \/ cmd = payees_cmd ->
  r_status (cmd E1 O) = SOk -> cmd E2 O = cmd E1 O.
Proof.
  intros Ro cmd Hc Ok. destruct (C84_listings E O p a a Path Start Steady Clock Orders fs Filters Ro cmd Hc) as [B K].
  assert (Ok2 : r_status (cmd E2 O) = SOk) by (apply B; auto). destruct (K Ok2) as (n1 & n2 & n & Q1 & Q2 & Q & As & H).
  assert (As1 : ascending n1).
  { assert (Re : CmdSpec.readable E1 O).
    { destruct (readable_dec E1 O fs Clock Orders) as [X|X]; [exact X|]. exfalso. destruct Hc as [-> | ->].
      - exact (proj2 (C40_accounts E1 O fs Clock Orders (holding_filters E O p fs Filters a)) X Ok).
      - exact (proj2 (C41_payees E1 O fs Clock Orders (holding_filters E O p fs Filters a) Ro) X Ok). }
    destruct Hc as [-> | ->].
    - destruct (proj1 (C40_accounts E1 O fs Clock Orders (holding_filters E O p fs Filters a)) Re) as (s & l & _ & Q0 & Al & _).
      fold E1 in Q1. rewrite Q0 in Q1. cbn in Q1. now rewrite <- (lines_inj _ _ Q1).
    - destruct (proj1 (C41_payees E1 O fs Clock Orders (holding_filters E O p fs Filters a) Ro) Re) as (s & l & _ & Q0 & Al & _).
      fold E1 in Q1. rewrite Q0 in Q1. cbn in Q1. now rewrite <- (lines_inj _ _ Q1). }
  fold E1 in Q1, Q2. fold E2 in Q. rewrite Q1 in Q2. apply lines_inj in Q2 as <-.
  assert (n = n1) as -> by (apply ascending_same; [exact As|exact As1|]; intro x; rewrite H; tauto).
  destruct (cmd E1 O) as [o1 r1], (cmd E2 O) as [o2 r2]. cbn [r_out r_status] in *. congruence.
Qed.

(** every transaction is printed twice; *)
Theorem C133_print : r_status (print_cmd E1 O) = SOk ->
  r_status (print_cmd E2 O) = SOk /\ Permutation (r_out (print_cmd E2 O)) (r_out (print_cmd E1 O) ++ r_out (print_cmd E1 O)).
Proof.
  intro Ok. destruct (C84_print E O p a a Path Start Steady Clock Orders fs Filters Sorts) as [B K].
  assert (Ok2 : r_status (print_cmd E2 O) = SOk) by (apply B; auto). split; [exact Ok2|exact (K Ok2)].
Qed.

(** and every balance is doubled (in 64 bits). *)
Theorem C133_balance : o_show_zero O = true -> r_status (balance_cmd E1 O) = SOk ->
  r_status (balance_cmd E2 O) = SOk /\
  exists t1 t2, balance_tree E1 O t1 /\ balance_tree E2 O t2 /\ forall q, exists x, shows t1 q x /\ shows t2 q (doubled x).
Proof.
  intros Zo Ok. destruct (C83_joined E O p a a Path Start Steady Clock Orders fs Filters Zo Sorts) as [B _].
  assert (Ok2 : r_status (balance_cmd E2 O) = SOk) by (apply B; auto). split; [exact Ok2|].
  pose proof (proj1 (proj1 (C61_balance E2 O fs Clock Orders (holding_filters E O p fs Filters _))) Ok2) as [[R _] _].
  destruct (balance_shows E1 O fs Clock Orders (holding_filters E O p fs Filters a) Zo Ok) as (z1 & t1 & Q1 & T1 & H1).
  destruct (balance_shows E2 O fs Clock Orders (holding_filters E O p fs Filters _) Zo Ok2) as (z2 & t2 & Q2 & T2 & H2).
  exists t1, t2. split; [exact T1|]. split; [exact T2|]. intro q.
  pose proof (proj2 (joined_picks E O p a a Path Start Steady fs z1 z1 z2 R Q1 Q1 Q2)) as Pm.
  eexists. split; [exact (shows_total _ _ H1 q)|]. pose proof (shows_total _ _ H2 q) as K.
  assert (T : total (filter (below q) (taken z2)) = 2 * total (filter (below q) (taken z1))).
  { rewrite (TreeFacts.total_perm _ _ (TreeFacts.filter_perm _ _ _ _ Pm)), filter_app, total_app. lia. }
  assert (X : existsb (below q) (taken z2) = existsb (below q) (taken z1)).
  { apply eq_true_iff_eq. rewrite !existsb_exists. split; intros (r & I & Br); exists r; (split; [|exact Br]).
    - apply (Permutation_in _ Pm) in I. apply in_app_iff in I as [I|I]; exact I.
    - apply (Permutation_in _ (Permutation_sym Pm)). apply in_app_iff. now left. }
  rewrite X, T in K. destruct (is_nil q || existsb (below q) (taken z1)); [|exact K]. cbn [doubled option_map].
  assert (W : wrap64 (2 * wrap64 (total (filter (below q) (taken z1)))) = wrap64 (2 * total (filter (below q) (taken z1)))); [|now rewrite W].
  apply wrap64_mul_r.
Qed.

Lemma span_twice : forall r r', span r r r' -> r' = r.
Proof. intros r r' H. inversion H; subst; [reflexivity|reflexivity|]. repeat match goal with K : _ \/ _ |- _ => destruct K as [[-> _]|[-> _]] end; reflexivity. Qed.

(** Statistics count each transaction twice and each account and payee once, over
    the same days; *)
Theorem C133_stats : r_status (stats_cmd E1 O) = SOk ->
  r_status (stats_cmd E2 O) = SOk /\
  exists n accs accs' pays pays' r r', tells E (r_out (stats_cmd E1 O)) n accs pays r /\ tells E (r_out (stats_cmd E2 O)) (2 * n) accs' pays' r' /\
    (forall x, In x accs' <-> In x accs) /\ (forall x, In x pays' <-> In x pays) /\
    (Forall (fun u => t_date (u_txn u) <> Date 1 1 1) (txns 0 (fst (stream E2 O))) -> r' = r).
Proof.
  intro Ok. destruct (C90_joined E O p a a Path Start Steady Clock Orders fs Filters Sorts) as [B _].
  assert (Ok2 : r_status (stats_cmd E2 O) = SOk) by (apply B; auto). split; [exact Ok2|].
  destruct (stats_tells E2 O fs Clock Orders (holding_filters E O p fs Filters _) Ok2) as (R & s & accs & pays & r & P & T & A & Y & N & D).
  destruct (stats_tells E1 O fs Clock Orders (holding_filters E O p fs Filters _) Ok) as (R1 & s1 & accs1 & pays1 & r1 & P1 & T1 & A1 & Y1 & N1 & D1).
  destruct (joined_picks E O p a a Path Start Steady fs s1 s1 s (proj1 R) P1 P1 P) as [Se Ta].
  exists (length s1), accs1, accs, pays1, pays, r1, r.
  split; [exact (tells_holding _ _ _ _ _ _ _ _ T1)|].
  assert (Ls : length s = (2 * length s1)%nat).
  { pose proof (f_equal (@length transaction) Se) as L. unfold selected in L. rewrite app_length, !map_length in L. lia. }
  split; [rewrite <- Ls; exact (tells_holding _ _ _ _ _ _ _ _ T)|].
  split; [|split].
  - intro z. rewrite A, A1. split.
    + intros (q & I & Q). apply (Permutation_in _ Ta) in I. apply in_app_iff in I as [I|I]; eauto.
    + intros (q & I & Q). exists q. split; [|exact Q]. apply (Permutation_in _ (Permutation_sym Ta)). apply in_app_iff. auto.
  - intro z. rewrite Y, Y1. rewrite Se. split.
    + intros (q & I & Q). apply in_app_iff in I as [I|I]; eauto.
    + intros (q & I & Q). exists q. split; [|exact Q]. apply in_app_iff. auto.
  - intro Fz. apply span_twice.
    assert (Z : Forall (fun t => t_date t <> Date 1 1 1) (selected s)).
    { clear - P Fz. induction P; [constructor|inversion Fz; auto|]. inversion Fz; subst. constructor; auto. }
    pose proof Z as Z'. rewrite Se in Z'. apply Forall_app in Z' as [Z1 Z2].
    apply (span_joined s1 s1 s); auto. intros t I. exact (selected_dated E2 O fs s t P I).
Qed.

(** and the budget has everything earned, assigned and spent twice. *)
Theorem C133_budget : r_status (budget_cmd E1 O) = SOk ->
  r_status (budget_cmd E2 O) = SOk /\
  exists log log', budget_tells E1 O fs log /\ budget_tells E2 O fs log' /\
    forall y m, earned (month y m log') = 2 * earned (month y m log) /\
      forall q, assigned q (month y m log') = 2 * assigned q (month y m log) /\ spent q (month y m log') = 2 * spent q (month y m log).
Proof.
  intro Ok. destruct (C91_joined E O p a a Path Start Steady Clock Orders fs Filters) as [B K].
  assert (Ok2 : r_status (budget_cmd E2 O) = SOk) by (apply B; auto). split; [exact Ok2|].
  destruct (K Ok2) as (log1 & log2 & log & T1 & T2 & T & Pm & _). exists log1, log.
  split; [exact T1|]. split; [exact T|].
  assert (Pm' : Permutation log (log1 ++ log1)).
  { destruct T1 as (ms1 & bs1 & H1 & _), T2 as (ms2 & bs2 & H2 & _). eapply perm_trans; [exact Pm|]. apply Permutation_app_head.
    exact (history_same _ _ _ _ _ _ H2 _ H1). }
  intros y m. split; [|intro q; split]; unfold earned, assigned, spent; rewrite (sum_joined _ y m _ _ _ Pm'); lia.
Qed.
End Twice.

Definition one_way : str := lit "2021-03-02 A" ++ [10] ++ lit "  x  $1" ++ [10] ++ lit "  z" ++ [10; 10] ++ lit "2021-03-04 B" ++ [10] ++ lit "  z  $2" ++ [10] ++ lit "  y" ++ [10].
Definition another_way : str := lit "2020-07-01 B" ++ [10] ++ lit "  y  $7" ++ [10] ++ lit "  q" ++ [10; 10] ++ lit "2021-03-04 A" ++ [10] ++ lit "  x  $2" ++ [10] ++ lit "  z" ++ [10].

Lemma range_whole : forall E O us, o_begin O = [] -> o_end O = [] -> o_current O = false -> Forall (fun u => 0 <= instant (t_date (u_txn u))) us -> in_range E O us us.
Proof.
  intros E O us B D C H. induction H as [|u us H _ IH]; [constructor|]. constructor; [|exact IH].
  split; [left; split; [now left|exact H]|right; left; split; assumption].
Qed.
Lemma dated_whole : forall us, forallb (fun u => 0 <=? instant (t_date (u_txn u))) us = true -> Forall (fun u => 0 <= instant (t_date (u_txn u))) us.
Proof. intros us H. rewrite forallb_forall in H. apply Forall_forall. intros u I. apply Z.leb_le. now apply H. Qed.

Example C132_example : let E x := env1 [(lit "j", x)] in let O := opts3 [] [] false [] in let O' := opts3 [] [] false [lit "x"; lit "z"] in
  let us x O := txns 0 (fst (stream (E x) O)) in
  (forall x, sane_clock (E x) /\ orders (E x)) /\
  (forall x, x = one_way \/ x = another_way -> CmdSpec.readable (E x) O /\ CmdSpec.readable (E x) O' /\ in_range (E x) O (us x O) (us x O) /\ in_range (E x) O' (us x O') (us x O')) /\
  payees_cmd (E another_way) O = payees_cmd (E one_way) O /\ payees_cmd (E one_way) O = Outcome (lines [lit "A"; lit "B"]) SOk /\
  accounts_cmd (E one_way) O = Outcome (lines [lit "x"; lit "y"; lit "z"]) SOk /\ accounts_cmd (E another_way) O = Outcome (lines [lit "q"; lit "x"; lit "y"; lit "z"]) SOk /\
  accounts_cmd (E another_way) O' = accounts_cmd (E one_way) O' /\ accounts_cmd (E one_way) O' = Outcome (lines [lit "x"; lit "z"]) SOk.
Proof.
  cbv zeta. split; [intro x; split; [apply env1_clock|apply env1_orders]|]. split.
  { intros x [-> | ->]; (split; [apply readable_noflags; vm_compute; reflexivity|]); (split; [apply readable_noflags; vm_compute; reflexivity|]);
      split; (apply range_whole; [reflexivity|reflexivity|reflexivity|]); apply dated_whole; vm_compute; reflexivity. }
  repeat split; vm_compute; reflexivity.
Qed.

Example C133_example : let E := env1 [] in let O := opts_zero [] [] in let p := lit "j" in let at_ x := holding E p x in
  let a := assign_text in let twice := a ++ LF :: a in
  let lines_of x := filter (fun l => str_eqb (firstn 4 l) (lit "Food") || str_eqb (firstn 4 l) (lit "2021")) (r_out (budget_cmd (at_ x) O)) in
  journal_path E O = Some p /\ line_start a /\ steady E /\ sane_clock E /\ orders E /\ sorts E /\ o_show_zero O = true /\ filters_for E (o_args O) [] /\
  Forall (fun x => e_re_ok E (case_text E x) = true) (o_args O) /\
  accounts_cmd (at_ twice) O = Outcome (lines [lit "Expenses:Food"; lit "w"]) SOk /\ r_status (accounts_cmd (at_ a) O) = SOk /\
  length (r_out (print_cmd (at_ a) O)) = 1%nat /\ length (r_out (print_cmd (at_ twice) O)) = 2%nat /\ r_status (print_cmd (at_ a) O) = SOk /\
  r_status (balance_cmd (at_ a) O) = SOk /\ r_status (stats_cmd (at_ a) O) = SOk /\ r_status (budget_cmd (at_ a) O) = SOk /\
  lines_of a = lines [lit "2021-03-01 00:00:00 +0000 UTC";
    lit "Food                           |                 0.00 |                 5.00 |                $5.00 |"; 
    lit "2021-04-01 00:00:00 +0000 UTC";
    lit "Food                           |                -1.00 |                 0.00 |               $-1.00 |"] /\
  lines_of twice = lines [lit "2021-03-01 00:00:00 +0000 UTC";
    lit "Food                           |                 0.00 |                10.00 |               $10.00 |"; 
    lit "2021-04-01 00:00:00 +0000 UTC";
    lit "Food                           |                -2.00 |                 0.00 |               $-2.00 |"].
Proof.
  cbv zeta. split; [reflexivity|]. split; [right; eexists; unfold assign_text; rewrite !app_assoc; reflexivity|]. split; [intro n; split; reflexivity|].
  split; [apply env1_clock|]. split; [apply env1_orders|]. split; [exact (env0_sorts [])|]. split; [reflexivity|].
  split; [apply makeFilters_spec; reflexivity|]. split; [constructor|]. repeat split; vm_compute; reflexivity.
Qed.
