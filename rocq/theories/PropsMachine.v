(** * What of the machine matters: C94

    The reports depend on the files, the flags and the arguments, not on when and
    where the program is run, nor on the orders in which Go iterates over maps. *)
From Verif Require Import Base BaseFacts Utf8 Unicode GoTime Strconv Display Journal Lexer Parser Account Reporting Budget FlatSpec Spec TextSpec DateFacts Sample ParseRel CmdSpec CmdFacts Cmd PropsCmd PropsBalance PropsAgain Main MainSpec PropsMain.

(** The same machine at another time, in another zone. *)
Definition at_another_time (E : env) (year tomorrow : nat -> Z) (local : date -> Z) (now : nat -> Z) : env :=
  Env (e_unicode E) (e_fs E) (e_depth E) (e_ledger_file E) (e_re_ok E) (e_re_match E) year tomorrow local
    (e_order E) (e_tree_order E) (e_sort E) now.

(** The flag is a date written with its year. *)
Definition full_date (flag : str) : Prop := exists d, forall now, 1000 <= now <= 9999 -> flag_means now flag d.

(** Neither flag needs the clock; and they are absent, or the zone is the same. *)
Definition fixed_dates (E : env) (O : opts) (local : date -> Z) : Prop :=
  o_current O = false /\
  (o_begin O = [] /\ o_end O = [] \/
   (forall d, local d = e_local E d) /\ (o_begin O = [] \/ full_date (o_begin O)) /\ (o_end O = [] \/ full_date (o_end O))).

Lemma full_instant : forall E O flag n, sane_clock E -> o_current O = false -> full_date flag ->
  flag_instant E O n flag = match flag with [] => POk 0 | _ => match parseSmartDate 2000 flag with POk d => POk (e_local E d * ns) | PErr e => PErr e | PPanic => PPanic end end.
Proof.
  intros E O flag n C Cu [d H]. unfold flag_instant. rewrite Cu. destruct flag as [|x flag]; [reflexivity|]. cbn [is_nil negb andb].
  pose proof (proj2 (smart_spec _ _ _ (C n)) (H _ (C n))) as ->.
  assert (Y : 1000 <= 2000 <= 9999) by lia. now rewrite (proj2 (smart_spec _ _ _ Y) (H _ Y)).
Qed.

Section Machine.
Variable E : env.
Variable O : opts.
Hypothesis Clock : sane_clock E.

Section Time.
Variables year tomorrow : nat -> Z.
Variable local : date -> Z.
Variable now : nat -> Z.
Let E' := at_another_time E year tomorrow local now.
Hypothesis Clock' : sane_clock E'.
Hypothesis Dates : fixed_dates E O local.

Lemma within_fixed : forall n t, withinDateRange E' O n t = withinDateRange E O n t.
Proof.
  intros n t. destruct Dates as [Cu D]. unfold withinDateRange. rewrite Cu.
  assert (F : forall flag n, flag = o_begin O \/ flag = o_end O -> flag_instant E' O n flag = flag_instant E O n flag).
  { intros flag k I. destruct D as [[B N]|(L & B & N)].
    - assert (flag = []) as -> by (destruct I; congruence). reflexivity.
    - assert (flag = [] \/ full_date flag) as [->|Fd] by (destruct I; subst flag; assumption); [reflexivity|].
      rewrite (full_instant E O flag k), (full_instant E' O flag k) by assumption. destruct flag; [reflexivity|].
      destruct (parseSmartDate 2000 (z :: flag)); try reflexivity. cbn [E' at_another_time e_local]. now rewrite L. }
  rewrite (F (o_begin O)), (F (o_end O)) by auto. reflexivity.
Qed.

Lemma checked_fixed : forall D fs k (s : hstate D) t p, checked E' O fs k s t p = checked E O fs k s t p.
Proof.
  intros D fs k s t p. unfold checked. assert (checkAgainstFilters E' O fs (h_n s) t = checkAgainstFilters E O fs (h_n s) t) as ->; [|reflexivity].
  unfold checkAgainstFilters. rewrite within_fixed. reflexivity.
Qed.
Lemma date_checked_fixed : forall D k (s : hstate D) t p, date_checked E' O k s t p = date_checked E O k s t p.
Proof. intros D k s t p. unfold date_checked. now rewrite within_fixed. Qed.

Lemma parse_fixed : forall D (th th' : D -> transaction -> str -> D * status) ph s, (forall s t p, th' s t p = th s t p) ->
  parse_cmd E' O (Some th') ph s = parse_cmd E O (Some th) ph s.
Proof.
  intros D th th' ph s H. unfold parse_cmd. cbn [E' at_another_time e_ledger_file e_fs e_unicode e_depth].
  destruct (match o_file O with [] => e_ledger_file E | z :: l => Some (z :: l) end) as [path|]; [|reflexivity].
  destruct (e_fs E path) as [f|]; [|reflexivity]. apply parse_ext; [exact H|reflexivity].
Qed.

Theorem C94_time : forall c, c <> Statistics \/ now = e_now E -> does E' c O = does E c O.
Proof.
  intros c H. destruct c; cbn [does]; unfold accounts_cmd, balance_cmd, budget_cmd, payees_cmd, print_cmd, stats_cmd, with_filters;
    change (makeFilters E') with (makeFilters E); destruct (makeFilters E (o_args O)) as [fs| |]; try reflexivity.
  - unfold accounts_run. rewrite (parse_fixed _ (date_checked E O accounts_handler)) by (intros; apply date_checked_fixed). reflexivity.
  - unfold balance_run. rewrite (parse_fixed _ (checked E O fs balance_handler)) by (intros; apply checked_fixed). reflexivity.
  - unfold budget_run. rewrite (parse_fixed _ (checked E O fs budget_handler)) by (intros; apply checked_fixed). reflexivity.
  - unfold payees_run. rewrite (parse_fixed _ (date_checked E O payees_handler)) by (intros; apply date_checked_fixed). reflexivity.
  - unfold print_run. rewrite (parse_fixed _ (checked E O fs print_handler)) by (intros; apply checked_fixed). reflexivity.
  - unfold stats_run. rewrite (parse_fixed _ (checked E O fs stats_handler)) by (intros; apply checked_fixed).
    destruct H as [H|H]; [contradiction|]. unfold E'. rewrite H. reflexivity.
Qed.
End Time.

Section Orders.
Variable o : nat -> forall A, list A -> list A.
Variable o' : list str -> forall A, list A -> list A.
Let E' := with_orders E o o'.
Hypothesis Orders : orders E.
Hypothesis Orders' : orders E'.

Lemma parse_ordered : forall D (th th' : D -> transaction -> str -> D * status) ph s, (forall s t p, th' s t p = th s t p) ->
  parse_cmd E' O (Some th') ph s = parse_cmd E O (Some th) ph s.
Proof.
  intros D th th' ph s H. unfold parse_cmd. cbn [E' with_orders e_ledger_file e_fs e_unicode e_depth].
  destruct (match o_file O with [] => e_ledger_file E | z :: l => Some (z :: l) end) as [path|]; [|reflexivity].
  destruct (e_fs E path) as [f|]; [|reflexivity]. apply parse_ext; [exact H|reflexivity].
Qed.

Lemma pick_order : forall n (l : list posting) is, is_nil (pick l (e_order E' n nat is)) = is_nil (pick l (e_order E n nat is)).
Proof.
  intros n l is.
  assert (P : Permutation (pick l (e_order E' n nat is)) (pick l (e_order E n nat is))).
  { unfold pick. apply Permutation_flat_map. rewrite (proj1 Orders' n nat is). symmetry. apply (proj1 Orders). }
  destruct (pick l (e_order E' n nat is)) eqn:Q.
  - apply Permutation_nil in P. now rewrite P.
  - destruct (pick l (e_order E n nat is)) eqn:Q'; [|reflexivity]. apply Permutation_sym, Permutation_nil in P. discriminate.
Qed.

(** Commands that look at whole transactions. *)
Lemma checked_ordered : forall D fs (k : hstate D -> nat -> transaction -> list posting -> str -> hstate D * status),
  (forall s n t ps ps' p, k s n t ps p = k s n t ps' p) -> forall s t p, checked E' O fs k s t p = checked E O fs k s t p.
Proof.
  intros D fs k H s t p. unfold checked, checkAgainstFilters. change (withinDateRange E') with (withinDateRange E).
  destruct (withinDateRange E O (h_n s) t) as [[|]| |]; try reflexivity. destruct fs as [|f fs]; [reflexivity|].
  change (match_filters E') with (match_filters E). destruct (match_filters E (f :: fs) t []) as [is|]; [|reflexivity].
  cbn [negb andb]. rewrite pick_order. destruct (is_nil _); [reflexivity|apply H].
Qed.

Lemma filter_perm : forall A (h : A -> bool) l l', Permutation l l' -> Permutation (filter h l) (filter h l').
Proof.
  intros A h l l' P. induction P as [|x l l' P IH|x y l|l l' l'' P1 IH1 P2 IH2]; cbn [filter]; [constructor| | |etransitivity; eauto].
  - destruct (h x); auto.
  - destruct (h x), (h y); auto. apply perm_swap.
Qed.
Lemma order_change : forall n (u : list str), Permutation (e_order E' n _ u) (e_order E n _ u).
Proof. intros n u. rewrite (proj1 Orders' n str u). symmetry. apply (proj1 Orders). Qed.

Theorem C94_orders : (forall c, c = Print \/ c = Accounts \/ c = Payees -> does E' c O = does E c O) /\
  (o_args O = [] -> does E' Budget_ O = does E Budget_ O /\ does E' Balance O = does E Balance O).
Proof.
  split; [intros c [->|[->| ->]]; cbn [does]|intro N; split; cbn [does]; [|now apply C26_unfiltered_partial]];
    unfold accounts_cmd, budget_cmd, payees_cmd, print_cmd, with_filters;
    change (makeFilters E') with (makeFilters E); destruct (makeFilters E (o_args O)) as [fs| |] eqn:Mf; try reflexivity.
  - unfold print_run. rewrite (parse_ordered _ (checked E O fs print_handler)) by (intros; now apply checked_ordered). reflexivity.
  - unfold accounts_run. rewrite (parse_ordered _ (date_checked E O accounts_handler)) by reflexivity.
    unfold finish. destruct (parse_cmd E O _ None _) as [s [| | | |]]; try reflexivity. do 3 f_equal. unfold accounts_prepare.
    destruct fs; apply sort_strings_permutation; [|apply filter_perm]; apply order_change.
  - unfold payees_run. rewrite (parse_ordered _ (date_checked E O payees_handler)) by reflexivity.
    unfold finish. destruct (parse_cmd E O _ None _) as [s [| | | |]]; try reflexivity.
    assert (payees_prepare E' (o_args O) (e_order E' (h_n s) str (h_data s)) = payees_prepare E (o_args O) (e_order E (h_n s) str (h_data s))) as ->; [|reflexivity].
    unfold payees_prepare. cbn [E' with_orders e_unicode e_re_ok e_re_match]. destruct (o_args O).
    + f_equal. apply sort_strings_permutation, order_change.
    + destruct (find _ _); [reflexivity|]. f_equal. apply sort_strings_permutation, filter_perm, order_change.
  - rewrite N in Mf. injection Mf as <-. unfold budget_run. rewrite (parse_ordered _ (checked E O [] budget_handler)) by reflexivity. reflexivity.
Qed.

(** stats lists the journal's files in the order of the map, the rest is the same. *)
Theorem C94_stats : o_args O = [] -> exists head files files' tail, Permutation files files' /\
  r_out (stats_cmd E O) = head ++ files ++ tail /\ r_out (stats_cmd E' O) = head ++ files' ++ tail /\
  r_status (stats_cmd E' O) = r_status (stats_cmd E O).
Proof.
  intro N. unfold stats_cmd, with_filters. rewrite N. cbn [makeFilters]. unfold stats_run.
  rewrite (parse_ordered _ (checked E O [] stats_handler)) by reflexivity.
  unfold finish. destruct (parse_cmd E O _ None _) as [s [| | | |]];
    try (exists (h_out s), [], [], []; rewrite ?app_nil_r; repeat split; constructor).
  cbn [r_out r_status]. unfold stats_report. destruct (s_count (h_data s) =? 0).
  - exists (h_out s ++ [lit "No transactions matched arguments." ++ nl]), [], [], []. rewrite !app_nil_r. repeat split; try reflexivity; constructor.
  - eexists (h_out s ++ [_]), (map _ (e_order E (h_n s) _ (s_files (h_data s)))), (map _ (e_order E' (h_n s) _ (s_files (h_data s)))), _.
    split; [|split; [|split]]; [|rewrite <- app_assoc; reflexivity|rewrite <- app_assoc; reflexivity|reflexivity].
    apply Permutation_map. symmetry. apply order_change.
Qed.
End Orders.
End Machine.

(** The same of the program. *)
Theorem C94_program : forall E L help_text library argv c O year tomorrow local now,
  sane_clock E -> sane_clock (at_another_time E year tomorrow local now) ->
  asks argv c O false -> fixed_dates E O local -> c <> Statistics \/ now = e_now E ->
  gledger (at_another_time E year tomorrow local now) L help_text library argv = gledger E L help_text library argv.
Proof.
  intros E L ht lib argv c O year tomorrow local now C C' A D H.
  rewrite (proj1 (C79_flags_partial (at_another_time E year tomorrow local now) L ht lib argv c O false A) eq_refl).
  rewrite (proj1 (C79_flags_partial E L ht lib argv c O false A) eq_refl). f_equal. now apply C94_time.
Qed.

(** A run with dates, five years later in another zone; and one without, in which
    maps are iterated backwards. *)
Example C94_example : let E := env1 files3 in
  let E' := at_another_time E (fun _ => 2026) (fun _ => 0) (e_local E) (fun _ => instant (Date 2021 8 1) * ns) in
  let E'' := with_orders E (fun _ _ l => rev l) (fun _ _ l => rev l) in
  let O := opts3 (lit "2021-03-02") (lit "2021/03/03") false [] in
  sane_clock E /\ sane_clock E' /\ fixed_dates E O (e_local E) /\ orders E'' /\ does E' Print O = does E Print O /\
  r_out (does E Print O) <> [] /\ length (r_out (does E'' Accounts (opts3 [] [] false []))) = 3%nat.
Proof.
  intros E E' E'' O.
  assert (F1 : full_date (lit "2021-03-02")).
  { exists (Date 2021 3 2). intros now _. left. apply (SmartFull now 45); [left; reflexivity| |apply real_date_iff; vm_compute; intuition discriminate].
    apply (YMD 45 (Date 2021 3 2) (lit "2021") (lit "03") (lit "02")); (split; [reflexivity|split; [repeat constructor; vm_compute; discriminate|reflexivity]]). }
  assert (F2 : full_date (lit "2021/03/03")).
  { exists (Date 2021 3 3). intros now _. left. apply (SmartFull now 47); [right; right; reflexivity| |apply real_date_iff; vm_compute; intuition discriminate].
    apply (YMD 47 (Date 2021 3 3) (lit "2021") (lit "03") (lit "03")); (split; [reflexivity|split; [repeat constructor; vm_compute; discriminate|reflexivity]]). }
  assert (C : sane_clock E) by (intro n; vm_compute; split; discriminate).
  assert (C' : sane_clock E') by (intro n; vm_compute; split; discriminate).
  assert (D : fixed_dates E O (e_local E)).
  { split; [reflexivity|right]. split; [reflexivity|]. split; right; assumption. }
  split; [exact C|]. split; [exact C'|]. split; [exact D|].
  split; [split; intros; symmetry; apply Permutation_rev|]. split; [apply C94_time; auto; left; discriminate|].
  split; [vm_compute; discriminate|vm_compute; reflexivity].
Qed.
