(** * The reports agree with each other: C95, C96 *)
From Verif Require Import Base BaseFacts Utf8 Unicode GoTime Strconv Display Journal Lexer Parser ParserFacts Account JournalFacts TreeFacts
  Reporting Budget Cmd Spec TextSpec DateFacts CalendarFacts AmountFacts CmdSpec StreamFacts CmdFacts ReportSpec TreeSpec FlatSpec FlatFacts
  Sample PropsCmd PropsBalance PropsPrint PropsStats BudgetSpec BudgetFacts PropsBudget PropsAgain PropsConcat PropsJoin PropsJoinMore PropsRanges.

(** ** C95: stats counts what the other commands list *)

Lemma ascending_nodup : forall l, ascending l -> NoDup l.
Proof.
  intros l H. induction H as [|a l S IH F]; constructor; auto. intro I. rewrite Forall_forall in F. apply F in I. now apply bytes_lt_irrefl in I.
Qed.
Lemma tells_names : forall E out n accs pays r accs' pays', tells E out n accs pays r ->
  NoDup accs' -> NoDup pays' -> (forall x, In x accs' <-> In x accs) -> (forall x, In x pays' <-> In x pays) -> tells E out n accs' pays' r.
Proof.
  intros E out n accs pays r accs' pays' T Na Np Ia Ip.
  assert (G : forall (l l' : list str), NoDup l -> NoDup l' -> (forall x, In x l' <-> In x l) -> length l = length l').
  { intros l l' A B C. apply Permutation_length, NoDup_Permutation; auto. intro x. symmetry. apply C. }
  destruct T as [|n accs pays fd ld files period rate age nt na np H1 H2 H3 H4 H5 H6].
  - assert (accs' = []) as -> by (destruct accs' as [|x l]; [reflexivity|destruct (proj1 (Ia x) (or_introl eq_refl))]).
    assert (pays' = []) as -> by (destruct pays' as [|x l]; [reflexivity|destruct (proj1 (Ip x) (or_introl eq_refl))]). constructor.
  - rewrite (G _ _ H2 Na Ia) in H5. rewrite (G _ _ H3 Np Ip) in H6. now constructor.
Qed.

Lemma range_picks : forall E O us sel sel', picks E O [] us sel -> in_range E O us sel' -> map fst sel = sel' /\ taken sel = flat_map (fun u => t_postings (u_txn u)) sel'.
Proof.
  intros E O us sel sel' P. revert sel'. induction P as [|u us sel No P IH|u us sel ps W Hh Pm Wh P IH]; intros sel' R; inversion R; subst.
  - auto.
  - apply IH. assumption.
  - exfalso. destruct No as [No|No]; [contradiction|discriminate].
  - contradiction.
  - match goal with X : in_range _ _ _ _ |- _ => destruct (IH _ X) as [E1 E2] end. unfold taken in *. cbn [map flat_map fst snd].
    rewrite E1, E2, (Wh (or_introl eq_refl)). auto.
Qed.

Lemma last_cons : forall A (l : list A) a d, last (a :: l) d = last l a.
Proof. induction l as [|b l IH]; intros a d; [reflexivity|]. change (last (b :: l) d = last (b :: l) a). now rewrite !IH. Qed.

(** How many transactions stats counts: as many as print shows. *)
Theorem C95_print : forall E O fs, sane_clock E -> orders E -> sorts E -> filters_for E (o_args O) fs -> r_status (stats_cmd E O) = SOk ->
  exists ts accs pays r, print_cmd E O = Outcome (lines (map transaction_string ts)) SOk /\
    tells E (r_out (stats_cmd E O)) (length ts) accs pays r /\
    (forall x, In x pays <-> In x (map t_payee ts)) /\
    (Forall (fun t => t_date t <> Date 1 1 1) ts -> forall t more, ts = t :: more -> r = Some (t_date t, t_date (last more t))).
Proof.
  intros E O fs C Or So F St. destruct (stats_tells E O fs C Or F St) as (R & sel & accs & pays & r & P & T & _ & Ip & _ & D).
  destruct (proj1 (C42_print E O fs C Or So F) R) as (sel' & ts & P' & Pm & Sd & Q).
  pose proof (picks_selected _ _ _ _ _ _ P P') as Sel. rewrite <- Sel in Pm.
  exists ts, accs, pays, r. split; [exact Q|]. split; [|split].
  - rewrite (Permutation_length Pm). unfold selected. rewrite map_length. exact T.
  - intro x. rewrite Ip, in_map_iff. split; intros (t & I & J); exists t.
    + split; [exact J|]. eapply Permutation_in; [symmetry; exact Pm|exact I].
    + split; [|exact I]. eapply Permutation_in; [exact Pm|exact J].
  - intros Nz t more Ets. assert (Ns : sel <> []).
    { intros ->. cbn in Pm. apply Permutation_sym, Permutation_nil in Pm. congruence. }
    destruct (D (Permutation_Forall Pm Nz) Ns) as (f & l & -> & [If Ef] & [Il El]).
    assert (Re : forall x, In x ts -> real_date (t_date x)).
    { intros x I. apply (selected_dated E O fs sel x P). eapply Permutation_in; eauto. }
    assert (In_d : forall d, In d (map t_date (selected sel)) <-> exists x, In x ts /\ t_date x = d).
    { intro d. rewrite in_map_iff. split; intros (x & A & B); exists x.
      - split; [eapply Permutation_in; [symmetry; exact Pm|exact B]|exact A].
      - split; [exact B|eapply Permutation_in; [exact Pm|exact A]]. }
    assert (Tri : forall a b, real_date a -> real_date b -> ~ earlier a b -> ~ earlier b a -> a = b).
    { intros a b Ra Rb N1 N2. rewrite <- instant_order in N1, N2 by assumption. apply instant_inj; auto. lia. }
    assert (Last : In (last more t) ts /\ forall x, In x ts -> ~ earlier (t_date (last more t)) (t_date x)).
    { subst ts. clear -Sd. revert t Sd. induction more as [|a more IH]; intros t Sd.
      - cbn [last]. split; [now left|]. intros x [<-|[]]. unfold earlier. lia.
      - change (last (a :: more) t) with (last (a :: more) t). inversion Sd as [|? ? Sd' Fd]; subst. specialize (IH a Sd') as [I1 I2].
        assert (L : last (a :: more) t = last more a) by apply last_cons.
        rewrite L. split; [now right|]. intros x [<-|I]; [|now apply I2]. rewrite Forall_forall in Fd. now apply Fd. }
    f_equal. f_equal.
    + apply In_d in If as (x & I & <-). apply Tri; [now apply Re|apply Re; subst ts; now left| |].
      * subst ts. inversion Sd as [|? ? _ Fd]; subst. destruct I as [<-|I]; [unfold earlier; lia|]. rewrite Forall_forall in Fd. now apply Fd.
      * apply Ef. apply In_d. exists t. split; [subst ts; now left|reflexivity].
    + destruct Last as [L1 L2]. apply In_d in Il as (x & I & <-). apply Tri; [now apply Re|now apply Re| |now apply L2].
      apply El. apply In_d. eauto.
Qed.

(** Without filters it counts the accounts and payees that are listed. *)
Theorem C95_listings : forall E O, sane_clock E -> orders E -> o_args O = [] -> r_status (stats_cmd E O) = SOk ->
  exists accs pays n r, accounts_cmd E O = Outcome (lines accs) SOk /\ payees_cmd E O = Outcome (lines pays) SOk /\
    tells E (r_out (stats_cmd E O)) n accs pays r.
Proof.
  intros E O C Or A St. assert (F : filters_for E (o_args O) []) by (rewrite A; split; constructor).
  destruct (stats_tells E O [] C Or F St) as (R & sel & accs & pays & r & P & T & Ia & Ip & _).
  destruct (proj1 (C40_accounts E O [] C Or F) R) as (s1 & names & R1 & Q1 & As1 & I1).
  assert (Ok : Forall (fun a => e_re_ok E (case_text E a) = true) (o_args O)) by (rewrite A; constructor).
  destruct (proj1 (C41_payees E O [] C Or F Ok) R) as (s2 & names2 & R2 & Q2 & As2 & I2).
  exists names, names2, (length sel), r. split; [exact Q1|]. split; [exact Q2|].
  apply (tells_names _ _ _ accs pays); auto using ascending_nodup.
  - intro x. rewrite I1, Ia. destruct (range_picks _ _ _ _ _ P R1) as [_ Tk]. rewrite Tk. split.
    + intros [(u & p & I & J & K) _]. exists p. split; [apply in_flat_map; eauto|exact K].
    + intros (q & I & K). apply in_flat_map in I as (u & I & J). split; [exists u, q; auto|now left].
  - intro x. rewrite I2, Ip. destruct (range_picks _ _ _ _ _ P R2) as [Fs _]. rewrite <- Fs. unfold selected. split.
    + intros [(u & I & K) _]. apply in_map_iff in I as (z & <- & I). exists (u_txn (fst z)). split; [apply in_map_iff; exists z; auto|exact K].
    + intros (t & I & K). apply in_map_iff in I as (z & <- & I). split; [|now left]. exists (fst z). split; [now apply in_map|exact K].
Qed.

(** ** C96: the budget of a month is the balance of that month *)
Definition following (y m : Z) : date := if m =? 12 then Date (y + 1) 1 1 else Date y (m + 1) 1.
Definition amount_of (x : option Z) : Z := match x with Some v => v | None => 0 end.

Lemma in_the_month : forall y m d, real_date d -> 1 <= m <= 12 ->
  ((d = Date y m 1 \/ earlier (Date y m 1) d) /\ earlier d (following y m) <-> d_year d = y /\ d_month d = m).
Proof.
  intros y m [dy dm dd] R M. pose proof (real_date_month _ R) as Md. apply real_date_iff in R; [|exact Md]. cbn [d_year d_month d_day] in *.
  assert (1 <= dd) by lia. unfold following. destruct (m =? 12) eqn:Q; [apply Z.eqb_eq in Q|apply Z.eqb_neq in Q]; unfold earlier; cbn [d_year d_month d_day]; split.
  - intros [[X|X] Y]; [inversion X; subst|]; lia.
  - intros [-> ->]. split; [|lia]. destruct (Z.eq_dec dd 1) as [->|]; [now left|right; lia].
  - intros [[X|X] Y]; [inversion X; subst|]; lia.
  - intros [-> ->]. split; [|lia]. destruct (Z.eq_dec dd 1) as [->|]; [now left|right; lia].
Qed.

Lemma flag_nonempty : forall now d, ~ flag_means now [] d.
Proof.
  intros now d X. destruct X as [X|X]; inversion X; subst.
  - match goal with H : numeral 4 [] _ |- _ => destruct H as [K _]; discriminate K end.
  - match goal with H : ?l ++ _ = [] |- _ => destruct l; discriminate H end.
  - match goal with H : ?l ++ _ = [] |- _ => destruct l; discriminate H end.
  - match goal with H : ymd_text _ _ [] |- _ => inversion H as [y0 ? ? ? ? ? K]; destruct y0; discriminate K end.
Qed.

Lemma total_cons : forall p ps, total (p :: ps) = total [p] + total ps.
Proof. intros p ps. change (p :: ps) with ([p] ++ ps). apply total_app. Qed.

Lemma below_of : forall k p, below k p = prefixb k (components p).
Proof. reflexivity. Qed.

(** What of a transaction's postings is spent and earned. *)
Lemma activity_spent : forall y m t ps q, d_year (t_date t) = y -> d_month (t_date t) = m ->
  spent q (month y m (activity t ps)) = total (filter (below (lit "Expenses" :: q)) ps) /\
  earned (month y m (activity t ps)) = total (filter (below [lit "Income"]) ps).
Proof.
  intros y m t ps q Y M. induction ps as [|p ps [IH1 IH2]]; [split; reflexivity|].
  unfold spent, earned, month in *. cbn [activity flat_map]. fold (activity t ps). rewrite !filter_app, !sum_of_app, IH1, IH2.
  cbn [filter]. rewrite !(below_of _ p).
  assert (Im : forall ty, in_month y m (Move ty (t_date t) p) = true) by (intro; unfold in_month; cbn; rewrite Y, M, !Z.eqb_refl; reflexivity).
  destruct (components p) as [|c cs] eqn:Q; cbn [firstn prefixb].
  - destruct (list_str_dec [] [lit "Expenses"]) as [X|_]; [discriminate|]. destruct (list_str_dec [] [lit "Income"]) as [X|_]; [discriminate|].
    split; reflexivity.
  - destruct (list_str_dec [c] [lit "Expenses"]) as [X|Nx].
    + injection X as ->. cbn [filter]. rewrite Im. change (str_eqb (lit "Expenses") (lit "Expenses")) with true. change (str_eqb (lit "Income") (lit "Expenses")) with false.
      cbn [andb]. unfold sum_of. cbn [filter is_spend is_earn is_assign mv_type concerns to_fund negb andb]. unfold concerns, to_fund, category.
      cbn [is_spend is_earn is_assign mv_type negb andb mv_posting]. rewrite Q. cbn [tl].
      split; [|cbn; lia]. destruct (prefixb q cs); cbn [map mv_posting]; [|cbn; lia]. now rewrite (total_cons p (filter _ ps)).
    + assert (str_eqb (lit "Expenses") c = false) as ->.
      { destruct (str_eqb (lit "Expenses") c) eqn:Z; [|reflexivity]. apply str_eqb_eq in Z. congruence. }
      cbn [andb]. destruct (list_str_dec [c] [lit "Income"]) as [X|Ni].
      * injection X as ->. cbn [filter]. rewrite Im. change (str_eqb (lit "Income") (lit "Income")) with true. cbn [andb prefixb].
        unfold sum_of. cbn [filter is_spend is_earn mv_type andb map mv_posting]. split; [reflexivity|]. rewrite (total_cons p (filter _ ps)). reflexivity.
      * assert (str_eqb (lit "Income") c = false) as ->.
        { destruct (str_eqb (lit "Income") c) eqn:Z; [|reflexivity]. apply str_eqb_eq in Z. congruence. }
        split; reflexivity.
Qed.
Lemma activity_other : forall y m t ps, d_year (t_date t) <> y \/ d_month (t_date t) <> m -> month y m (activity t ps) = [].
Proof.
  intros y m t ps N. induction ps as [|p ps IH]; [reflexivity|]. unfold month in *. cbn [activity flat_map]. fold (activity t ps). rewrite filter_app, IH, app_nil_r.
  assert (Im : forall ty, in_month y m (Move ty (t_date t) p) = false).
  { intro ty. unfold in_month. cbn [mv_date]. apply andb_false_iff. destruct N as [N|N]; [left|right]; now apply Z.eqb_neq. }
  destruct (list_str_dec _ _); [cbn [filter]; now rewrite Im|]. destruct (list_str_dec _ _); [cbn [filter]; now rewrite Im|]. reflexivity.
Qed.
Lemma allocations_inert : forall y m pt q, spent q (month y m (allocations pt)) = 0 /\ earned (month y m (allocations pt)) = 0.
Proof.
  intros y m pt q. unfold allocations. induction (t_postings (pt_txn pt)) as [|p ps IH]; [split; reflexivity|].
  unfold spent, earned, month in *. cbn [map filter]. destruct (in_month y m _); [|exact IH].
  unfold sum_of in *. cbn [filter is_spend is_earn mv_type andb]. exact IH.
Qed.

Section Months.
Variable E : env.
Variable O : opts.
Variables a b : str.
Variables y m : Z.
Variable fs : list filter_.
Hypothesis Clock : sane_clock E.
Hypothesis Orders : orders E.
Hypothesis Filters : filters_for E (o_args O) fs.
Hypothesis Zone : eastern E.
Hypothesis No_dates : o_begin O = [] /\ o_end O = [] /\ o_current O = false.
Hypothesis Year : 1 <= y.
Hypothesis Month : 1 <= m <= 12.
Hypothesis Flags : forall n, flag_means (e_year E n) a (Date y m 1) /\ flag_means (e_year E n) b (following y m).
Let O' := with_dates O a b.

Lemma month_within : forall n d, real_date d -> (within E O' n d <-> d_year d = y /\ d_month d = m).
Proof.
  intros n d R. destruct No_dates as (B & N & Cu).
  assert (Na : a <> []) by (intros ->; destruct (Flags 0%nat) as [X _]; exact (flag_nonempty _ _ X)).
  assert (Nb : b <> []) by (intros ->; destruct (Flags 0%nat) as [_ X]; exact (flag_nonempty _ _ X)).
  rewrite (C38_range_partial E O' n d Zone Cu R), <- in_the_month by assumption.
  unfold on_or_after_begin, before_end. cbn [O' with_dates o_begin o_end]. split.
  - intros [[[X _]|(_ & x & Fx & X)] [Y|(_ & z & Fz & Y)]]; try contradiction.
    rewrite (flag_unique E _ _ _ _ Clock Fx (proj1 (Flags _))) in X. rewrite (flag_unique E _ _ _ _ Clock Fz (proj2 (Flags _))) in Y.
    split; [exact X|]. destruct Y as [[Y _]|Y]; [|exact Y]. exfalso. unfold following in Y. destruct (m =? 12); inversion Y; lia.
  - intros [X Y]. split; [right; split; [exact Na|]; exists (Date y m 1); split; [apply Flags|exact X]|].
    right. split; [exact Nb|]. exists (following y m). split; [apply Flags|now right].
Qed.

Lemma month_sums : forall n evs log, history E O fs n evs log -> Forall dated_event evs -> forall sel, picks E O' fs (txns n evs) sel ->
  forall q, spent q (month y m log) = total (filter (below (lit "Expenses" :: q)) (taken sel)) /\
    earned (month y m log) = total (filter (below [lit "Income"]) (taken sel)).
Proof.
  assert (Mapp : forall l l', month y m (l ++ l') = month y m l ++ month y m l') by (intros; apply filter_app).
  assert (Sapp : forall q l l', spent q (l ++ l') = spent q l + spent q l') by (intros; apply sum_of_app).
  assert (Eapp : forall l l', earned (l ++ l') = earned l + earned l') by (intros; apply sum_of_app).
  assert (W : forall n d, real_date d -> d_year d = y -> within E O n d).
  { intros n d R Y. destruct No_dates as (B & N & Cu). split; [left; split; [now left|apply zero_le; [exact R|lia]]|right; left; auto]. }
  induction 1 as [n|n pt p evs log H IH|n t p evs log No H IH|n t p ps evs log Wi Hi P Wh H IH]; intros D sel K q; cbn [txns] in K.
  - inversion K; subst. split; reflexivity.
  - inversion D; subst. rewrite Mapp, Sapp, Eapp. destruct (allocations_inert y m pt q) as [-> ->]. cbn [Z.add]. now apply IH.
  - inversion D as [|? ? De Dr]; subst. apply proj1 in De. inversion K as [|? ? ? No' K'|? ? ? ps W' Hh Pm Wh K']; subst; cbn [u_n u_txn] in *; [now apply IH|].
    exfalso. apply month_within in W'; [|exact De]. destruct No as [No|No]; [|congruence]. apply No. now apply W.
  - inversion D as [|? ? De Dr]; subst. apply proj1 in De. rewrite Mapp, Sapp, Eapp.
    inversion K as [|? ? ? No' K'|? ? ? ps' W' Hh Pm Wh' K']; subst; cbn [u_n u_txn] in *.
    + rewrite activity_other; [now apply IH|]. destruct No' as [No'|No']; [|congruence]. rewrite month_within in No' by exact De. lia.
    + apply month_within in W'; [|exact De]. destruct W' as [Y M]. destruct (activity_spent y m t ps q Y M) as [-> ->].
      destruct (IH Dr _ K' q) as [-> ->]. unfold taken. cbn [flat_map snd]. rewrite !filter_app, !total_app.
      assert (X : Permutation ps ps') by (rewrite P; now symmetry). split; f_equal; apply total_perm, filter_perm, X.
Qed.

Theorem C96_month : o_show_zero O = true -> r_status (budget_cmd E O) = SOk -> r_status (balance_cmd E O') = SOk ->
  exists log t, budget_tells E O fs log /\ balance_tree E O' t /\
    (forall q, exists x, shows t (lit "Expenses" :: q) x /\ wrap64 (spent q (month y m log)) = amount_of x) /\
    exists x, shows t [lit "Income"] x /\ wrap64 (earned (month y m log)) = amount_of x.
Proof.
  intros Sz Bu Ba. destruct (proj2 (C48_report E O fs Clock Orders Filters) Bu) as (log & l & bs & H & M & Fb & Out).
  destruct (balance_shows E O' fs Clock Orders Filters Sz Ba) as (sel & t & P & T & N).
  exists log, t. split; [exists l, bs; auto|]. split; [exact T|].
  pose proof (month_sums _ _ _ H (stream_dated E O) sel P) as S.
  assert (Z : forall q ps, existsb (below q) ps = false -> total (filter (below q) ps) = 0).
  { intros q ps F. induction ps as [|x ps IH]; [reflexivity|]. cbn in *. apply orb_false_iff in F as [-> F]. auto. }
  assert (G : forall q z, q <> [] -> z = total (filter (below q) (taken sel)) -> exists x, shows t q x /\ wrap64 z = amount_of x).
  { intros q z Nq ->. eexists. split; [exact (shows_total _ _ N q)|]. destruct q as [|c q]; [contradiction|]. cbn [is_nil orb].
    destruct (existsb _ _) eqn:X; [reflexivity|]. now rewrite (Z _ _ X). }
  split.
  - intro q. apply G; [discriminate|apply S].
  - apply G; [discriminate|apply (S [])].
Qed.
End Months.

Example C95_example : let E := env1 [(lit "j", text_ranges)] in let O := opts0 "j" in
  r_status (stats_cmd E O) = SOk /\ length (r_out (print_cmd E O)) = 2%nat /\
  r_out (accounts_cmd E O) = lines [lit "Cash"; lit "Expenses:Food"; lit "Expenses:Fun"; lit "Income:Pay"] /\
  r_out (payees_cmd E O) = lines [lit "A"; lit "B"] /\
  firstn 3 (skipn 5 (r_out (stats_cmd E O))) = [lit "Transactions:" ++ tab ++ tab ++ lit "2 (0.1 per day)" ++ [10];
    lit "Unique accounts:" ++ tab ++ lit "4" ++ [10]; lit "Unique payees:" ++ tab ++ tab ++ lit "2" ++ [10]].
Proof. vm_compute. repeat split. Qed.

Example C96_example : let E := env1 [(lit "j", text_ranges)] in let O := Opts (lit "j") [] [] false [] false false true in
  eastern E /\ (forall n, flag_means (e_year E n) (lit "2021-03") (Date 2021 3 1) /\ flag_means (e_year E n) (lit "2021-04") (following 2021 3)) /\
  r_status (budget_cmd E O) = SOk /\ r_status (balance_cmd E (with_dates O (lit "2021-03") (lit "2021-04"))) = SOk /\
  exists log, history E O [] 0 (fst (stream E O)) log /\ spent [lit "Fun"] (month 2021 3 log) = 300 /\ earned (month 2021 3 log) = -500.
Proof.
  intros E O. split; [|split; [|split; [vm_compute; reflexivity|split; [vm_compute; reflexivity|]]]].
  - intro d. cbn [E env1 e_local env0]. lia.
  - intro n. split; left; [apply (SmartYearMonth _ 45 (lit "2021") (lit "03") 2021 3)|apply (SmartYearMonth _ 45 (lit "2021") (lit "04") 2021 4)];
      try lia; try (left; reflexivity); (split; [reflexivity|split; [repeat constructor; vm_compute; discriminate|reflexivity]]).
  - exists (computed E O 0 (fst (stream E O))). split; [|vm_compute; auto]. apply computed_history; [apply env1_clock|].
    apply flags_always. intro n. split; left; reflexivity.
Qed.
