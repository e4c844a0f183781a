(** * C130: the date flags mean only the days they name *)
From Verif Require Import Base BaseFacts Utf8 Unicode GoTime Strconv Display Journal Lexer Parser Account Reporting Budget FlatSpec Spec TextSpec DateFacts CalendarFacts
  Sample ParseRel CmdSpec CmdFacts Cmd PropsCmd PropsBalance PropsAgain Main MainSpec PropsMain PropsMachine PropsJoin PropsJoinMore PropsDays.

(** The same command line with other date flags. *)
Definition redated (O : opts) (b e : str) (current : bool) : opts :=
  Opts (o_file O) b e current (o_args O) (o_flatten O) (o_collapse O) (o_show_zero O).

Section SameDays.
Variable E : env.
Variable O : opts.
Variables b e : str.
Variable current : bool.
Let O' := redated O b e current.
Hypothesis Clock : sane_clock E.
Hypothesis Flags : forall n, good_flags E O n.
Hypothesis Flags' : forall n, good_flags E O' n.
Hypothesis Same : forall n d, within E O n d <-> within E O' n d.

Lemma within_same : forall n t, withinDateRange E O' n t = withinDateRange E O n t.
Proof.
  intros n t. pose proof (within_spec E O n t Clock) as W. pose proof (within_spec E O' n t Clock) as W'. specialize (Same n (t_date t)).
  destruct (withinDateRange E O n t) as [[|]|x|]; [| |exfalso; exact (W (Flags n))|contradiction];
    destruct (withinDateRange E O' n t) as [[|]|x'|]; try (exfalso; exact (W' (Flags' n))); try contradiction; try reflexivity; exfalso; tauto.
Qed.
Lemma checked_same : forall D fs k (s : hstate D) t p, checked E O' fs k s t p = checked E O fs k s t p.
Proof.
  intros D fs k s t p. unfold checked. assert (checkAgainstFilters E O' fs (h_n s) t = checkAgainstFilters E O fs (h_n s) t) as ->; [|reflexivity].
  unfold checkAgainstFilters. now rewrite within_same.
Qed.
Lemma date_checked_same : forall D k (s : hstate D) t p, date_checked E O' k s t p = date_checked E O k s t p.
Proof. intros D k s t p. unfold date_checked. now rewrite within_same. Qed.
Lemma parse_same : forall D (th th' : D -> transaction -> str -> D * status) ph s, (forall s t p, th' s t p = th s t p) ->
  parse_cmd E O' (Some th') ph s = parse_cmd E O (Some th) ph s.
Proof.
  intros D th th' ph s H. unfold parse_cmd. cbn [O' redated o_file].
  destruct (match o_file O with [] => e_ledger_file E | z :: l => Some (z :: l) end) as [path|]; [|reflexivity].
  destruct (e_fs E path) as [f|]; [|reflexivity]. apply parse_ext; [exact H|reflexivity].
Qed.

(** Flags that allow the same days do the same, whatever the command. *)
Theorem C130_same_days : forall c, does E c O' = does E c O.
Proof.
  intro c. destruct c; cbn [does]; unfold accounts_cmd, balance_cmd, budget_cmd, payees_cmd, print_cmd, stats_cmd, with_filters;
    change (makeFilters E (o_args O')) with (makeFilters E (o_args O)); destruct (makeFilters E (o_args O)) as [fs| |]; try reflexivity.
  - unfold accounts_run. rewrite (parse_same _ (date_checked E O accounts_handler)) by (intros; apply date_checked_same). reflexivity.
  - unfold balance_run. rewrite (parse_same _ (checked E O fs balance_handler)) by (intros; apply checked_same). reflexivity.
  - unfold budget_run. rewrite (parse_same _ (checked E O fs budget_handler)) by (intros; apply checked_same). reflexivity.
  - unfold payees_run. rewrite (parse_same _ (date_checked E O payees_handler)) by (intros; apply date_checked_same). reflexivity.
  - unfold print_run. rewrite (parse_same _ (checked E O fs print_handler)) by (intros; apply checked_same). reflexivity.
  - unfold stats_run. rewrite (parse_same _ (checked E O fs stats_handler)) by (intros; apply checked_same). reflexivity.
Qed.
End SameDays.

(** The flag is left out, or a date that only its meaning matters of. *)
Definition same_flag (E : env) (x y : str) : Prop := x = [] /\ y = [] \/ exists d, forall n, flag_means (e_year E n) x d /\ flag_means (e_year E n) y d.

(** However the dates of the flags are spelled. *)
Theorem C130_spelling : forall E O b e c, sane_clock E -> o_current O = false -> same_flag E (o_begin O) b -> same_flag E (o_end O) e ->
  does E c (redated O b e false) = does E c O.
Proof.
  intros E O b e c C Cu B F.
  assert (G : forall x y, same_flag E x y -> forall O n, good_flag E O n x /\ good_flag E O n y).
  { intros x y [[-> ->]|(d & H)] O0 n; [split; now left|]. destruct (H n). split; right; right; exists d; assumption. }
  assert (Ne : forall x y, same_flag E x y -> (x = [] <-> y = [])).
  { intros x y [[-> ->]|(d & H)]; [reflexivity|]. destruct (H 0%nat) as [X Y]. split; intros ->; exfalso; eapply smart_spec in X, Y; try apply C; discriminate. }
  assert (Me : forall x y n d, same_flag E x y -> flag_means (e_year E n) x d <-> flag_means (e_year E n) y d).
  { intros x y n d [[-> ->]|(d0 & H)]; [reflexivity|]. destruct (H n) as [X Y]. split; intro Z.
    - now rewrite (flag_unique E n x d d0 C Z X).
    - now rewrite (flag_unique E n y d d0 C Z Y). }
  apply C130_same_days; [exact C| | |].
  - intro n. split; apply (G _ _ B) || apply (G _ _ F).
  - intro n. split; apply (G _ _ B) || apply (G _ _ F).
  - intros n d. unfold within, starts_before, ends_after. cbn [redated o_begin o_end o_current]. rewrite Cu, (Ne _ _ B), (Ne _ _ F).
    setoid_rewrite (Me _ _ (2 * n)%nat _ B). setoid_rewrite (Me _ _ (2 * n + 1)%nat _ F). reflexivity.
Qed.

(** --current, on a machine whose zone is UTC: the same as --end with the day after
    today at midnight, and with the day after that at any other time. *)
Theorem C130_current : forall E O today time d text c, sane_clock E -> o_current O = true -> 0 <= instant today ->
  (forall n, e_tomorrow E n = (instant today + 86400) * second + time) -> 0 <= time < 86400 * second -> e_local E d = instant d ->
  day_number d = day_number today + (if time =? 0 then 1 else 2) -> (forall n, flag_means (e_year E n) text d) ->
  does E c (redated O [] text false) = does E c O.
Proof.
  intros E O today time d text c C Cu Pos Tm Bd Lo Dn Fm. apply C130_same_days; [exact C| | |].
  - intro n. split; right; now left.
  - intro n. split; [now left|right; right; now exists d].
  - intros n x. unfold within, starts_before, ends_after. cbn [redated o_begin o_end o_current]. rewrite Cu, Tm.
    assert (Ne : text <> []). { intros ->. pose proof (Fm 0%nat) as X. eapply smart_spec in X; [|apply C]. discriminate. }
    assert (Z0 : 0 < e_local E d) by (rewrite Lo; unfold instant in *; destruct (time =? 0); lia).
    assert (Q : instant x * second < (instant today + 86400) * second + time <-> instant x < e_local E d).
    { rewrite Lo. unfold instant, second in *. destruct (time =? 0) eqn:T0; lia. }
    assert (Tz : (instant today + 86400) * second + time <> 0) by (unfold second in *; lia).
    split; intros [S1 S2].
    + split; [left; split; [now left|]; destruct S1 as [[_ S1]|(_ & K & _)]; [exact S1|discriminate]|].
      right; right. split; [reflexivity|]. split; [exact Ne|]. exists d. split; [apply Fm|]. right. apply Q.
      destruct S2 as [[_ [S2|S2]]|[[K _]|[K _]]]; [contradiction|exact S2|discriminate|discriminate].
    + split; [left; split; [now right|]; destruct S1 as [[_ S1]|(K & _)]; [exact S1|now exfalso; apply K]|].
      left. split; [reflexivity|]. right. apply Q. destruct S2 as [[K _]|[[_ K]|(_ & _ & d' & F & [S2|S2])]]; [discriminate|contradiction| |];
        rewrite (flag_unique E _ text d' d C F (Fm _)) in S2; [lia|exact S2].
Qed.

(** The same of the program: two command lines asking for the same but for how the
    dates are spelled. *)
Theorem C130_program : forall E L help_text library argv argv' c O b e, sane_clock E -> o_current O = false ->
  same_flag E (o_begin O) b -> same_flag E (o_end O) e -> asks argv c O false -> asks argv' c (redated O b e false) false ->
  gledger E L help_text library argv' = gledger E L help_text library argv.
Proof.
  intros E L ht lib argv argv' c O b e C Cu B F A A'.
  rewrite (proj1 (C79_flags_partial E L ht lib argv c O false A) eq_refl), (proj1 (C79_flags_partial E L ht lib argv' c _ false A') eq_refl).
  f_equal. now apply C130_spelling.
Qed.

Example C130_example : let E := holding (env1 []) (lit "j") (all_parts day_parts) in
  let O := with_dates (opts0 "j") (lit "2021-03-02") (lit "2022") in let Oc := redated O [] [] true in
  sane_clock E /\ same_flag E (o_begin O) (lit "03.02") /\ same_flag E (o_end O) (lit "2022/01/01") /\
  r_status (balance_cmd E O) = SOk /\ length (r_out (print_cmd E O)) = 2%nat /\ balance_cmd E (undated O) <> balance_cmd E O /\
  (forall n, e_tomorrow E n = (instant (Date 2021 6 30) + 86400) * second + 0) /\ 0 <= instant (Date 2021 6 30) /\
  e_local E (Date 2021 7 1) = instant (Date 2021 7 1) /\ day_number (Date 2021 7 1) = day_number (Date 2021 6 30) + 1 /\
  (forall n, flag_means (e_year E n) (lit "07/01") (Date 2021 7 1)) /\
  length (r_out (print_cmd E (redated O [] (lit "07/01") false))) = 3%nat /\ length (r_out (print_cmd E (undated O))) = 4%nat.
Proof.
  cbv zeta. assert (M : forall s d, parseSmartDate 2021 s = POk d -> flag_means 2021 s d) by (intros s d H; apply smart_spec; [lia|exact H]).
  split; [apply env1_clock|].
  split; [right; exists (Date 2021 3 2); intro n; split; apply M; vm_compute; reflexivity|].
  split; [right; exists (Date 2022 1 1); intro n; split; apply M; vm_compute; reflexivity|].
  do 2 (split; [vm_compute; reflexivity|]). split; [vm_compute; discriminate|]. split; [intro n; vm_compute; reflexivity|]. split; [vm_compute; discriminate|].
  do 2 (split; [vm_compute; reflexivity|]). split; [intro n; apply M; vm_compute; reflexivity|]. split; vm_compute; reflexivity.
Qed.
