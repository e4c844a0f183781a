(** * Properties of the commands: C37-C42, C44, C56, C59 *)
From Verif Require Import Base BaseFacts Utf8 Utf8Facts Unicode GoTime Strconv Display Journal Lexer Parser ParserFacts
  Account Reporting Budget Cmd Spec JournalFacts TextSpec DateFacts CalendarFacts AmountFacts CmdSpec StreamFacts CmdFacts Sample.

(** ** C37: filters *)

(** Whatever a command does with a transaction ([k]), it does it to the
    transactions in range that the filters select, with all postings if the payee
    or a note is selected and otherwise with the selected postings. *)
Theorem C37_filters : forall E O D fs k (s : hstate D) t path, sane_clock E -> orders E ->
  let s1 := HS (Datatypes.S (h_n s)) (h_out s) (h_data s) in
  (good_flags E O (h_n s) /\ (~ within E O (h_n s) (t_date t) \/ hit E fs t = false) /\
   checked E O fs k s t path = (s1, SOk)) \/
  (good_flags E O (h_n s) /\ within E O (h_n s) (t_date t) /\ hit E fs t = true /\
   exists ps, Permutation ps (hits E fs t) /\ (fs = [] \/ whole_hit E fs t = true -> ps = t_postings t) /\
     checked E O fs k s t path = k s1 (h_n s) t ps path) \/
  (~ good_flags E O (h_n s) /\ exists e, checked E O fs k s t path = (s1, SErr e)).
Proof. intros E O D fs k s t path C Or. apply checked_cases; assumption. Qed.

(** The filters are those written on the command line. *)
Theorem C37_arguments : forall E args fs, makeFilters E args = POk fs <-> filters_for E args fs.
Proof. apply makeFilters_spec. Qed.

(** A machine like [env0] whose regular expressions are compared for equality. *)
Definition env1 (files : list (str * str)) : env :=
  let e := env0 files in
  Env (e_unicode e) (e_fs e) (e_depth e) (e_ledger_file e) (e_re_ok e)
    (fun r s => str_eqb r s || str_eqb r (lit "(?i)" ++ s)) (e_year e) (e_tomorrow e) (e_local e)
    (e_order e) (e_tree_order e) (e_sort e) (e_now e).

Lemma env0_clock : forall files, sane_clock (env0 files).
Proof. intros files n. cbn. lia. Qed.
Lemma env0_orders : forall files, orders (env0 files).
Proof. intro files. split; intros; apply Permutation_refl. Qed.
Lemma env1_clock : forall files, sane_clock (env1 files).
Proof. intros files n. cbn. lia. Qed.
Lemma env1_orders : forall files, orders (env1 files).
Proof. intro files. split; intros; apply Permutation_refl. Qed.

Definition lunch : transaction :=
  Txn (Date 2021 3 4) NoState (lit "Cafe") [Posting [] (lit "a") None; Posting [lit "tip"] (lit "b") None; Posting [] (lit "c") None]
    None [] [lit "nice"].
Example C37_example :
  hits (env1 []) [Filter (lit "a") AccountNameFilter; Filter (lit "tip") NoteFilter] lunch = firstn 2 (t_postings lunch) /\
  hits (env1 []) [Filter (lit "(?i)Cafe") PayeeFilter] lunch = t_postings lunch /\
  hits (env1 []) [Filter (lit "nice") NoteFilter] lunch = t_postings lunch /\
  hits (env1 []) [Filter (lit "Cafe") AccountNameFilter] lunch = [] /\
  makeFilters (env1 []) [lit "@Cafe"; lit "=tip"; lit "a"] =
    POk [Filter (lit "Cafe") PayeeFilter; Filter (lit "(?i)tip") NoteFilter; Filter (lit "(?i)a") AccountNameFilter].
Proof. repeat split. Qed.

(** ** C38: --begin and --end *)

Lemma real_first : forall y m, 1 <= m <= 12 -> real_date (Date y m 1).
Proof.
  intros y m M. apply real_date_iff; cbn; [exact M|]. unfold days_in. destruct (m =? 2); [destruct (is_leap y); lia|].
  destruct (_ || _); lia.
Qed.

Lemma flag_real : forall now s d, flag_means now s d -> real_date d.
Proof.
  intros now s d [H|H]; inversion H; subst; auto; apply real_first; lia.
Qed.

(** The dates asked for, on the calendar.  (An end at the very first instant of
    year 1 UTC is Go's zero time and means no end.) *)
Definition on_or_after_begin (E : env) (O : opts) (n : nat) (d : date) : Prop :=
  o_begin O = [] /\ 1 <= d_year d \/
  o_begin O <> [] /\ exists b, flag_means (e_year E (2 * n)) (o_begin O) b /\ (d = b \/ earlier b d).
Definition before_end (E : env) (O : opts) (n : nat) (d : date) : Prop :=
  o_end O = [] \/
  o_end O <> [] /\ exists e, flag_means (e_year E (2 * n + 1)) (o_end O) e /\ (e = Date 1 1 1 /\ e_local E e = 0 \/ earlier d e).
Definition after_begin (E : env) (O : opts) (n : nat) (d : date) : Prop :=
  o_begin O = [] /\ 1 <= d_year d \/
  o_begin O <> [] /\ exists b, flag_means (e_year E (2 * n)) (o_begin O) b /\ earlier b d.
Definition on_or_before_end (E : env) (O : opts) (n : nat) (d : date) : Prop :=
  o_end O = [] \/
  o_end O <> [] /\ exists e, flag_means (e_year E (2 * n + 1)) (o_end O) e /\ (d = e \/ earlier d e).

Lemma instant_le : forall a b, real_date a -> real_date b -> (instant a <= instant b <-> b = a \/ earlier a b).
Proof.
  intros a b Ra Rb. split.
  - intro L. destruct (Z.eq_dec (instant a) (instant b)) as [Q|Q].
    + left. symmetry. now apply instant_inj.
    + right. apply instant_order; auto. lia.
  - intros [->|X]; [lia|]. apply instant_order in X; auto. lia.
Qed.

Lemma real_zero : real_date (Date 1 1 1).
Proof. apply real_first. lia. Qed.
Lemma zero_le : forall d, real_date d -> (0 <= instant d <-> 1 <= d_year d).
Proof.
  intros d R. change 0 with (instant (Date 1 1 1)). rewrite instant_le by (auto using real_zero).
  destruct d as [y m dd]. pose proof (real_date_month _ R) as M. cbn in M.
  assert (1 <= dd) by (apply real_date_iff in R; cbn in *; lia).
  unfold earlier. cbn. split.
  - intros [X|X]; [inversion X|]; lia.
  - intro X. destruct (Z.eq_dec y 1); [|right; lia]. destruct (Z.eq_dec m 1); [|right; lia].
    destruct (Z.eq_dec dd 1); [left; congruence|right; lia].
Qed.

(** Midnight of a day comes on the same day UTC or the day before, as in zones at
    or east of Greenwich; or the same day but later, as west of it. *)
Definition eastern (E : env) : Prop := forall d, instant d - 86400 < e_local E d <= instant d.
Definition western (E : env) : Prop := forall d, instant d < e_local E d < instant d + 86400.

Lemma earlier_day : forall a b, real_date a -> real_date b -> (earlier a b <-> instant a + 86400 <= instant b).
Proof. intros a b Ra Rb. rewrite <- (instant_order a b Ra Rb). unfold instant. lia. Qed.

(** At or east of Greenwich the range is exactly what the flags say, except that
    years before 1 are left out without --begin, and that an --end of
    0001-01-01 UTC means no end. *)
Theorem C38_range_partial : forall E O n d, eastern E -> o_current O = false -> real_date d ->
  (within E O n d <-> on_or_after_begin E O n d /\ before_end E O n d).
Proof.
  intros E O n d L Cu R. unfold within, starts_before, ends_after, on_or_after_begin, before_end. rewrite Cu. split.
  - intros [S1 S2]. split.
    + destruct S1 as [[[B|X] Z0]|(B & _ & b & F & Z0)]; [left|discriminate|right].
      * split; [exact B|]. now apply zero_le.
      * split; [exact B|]. exists b. split; [exact F|]. pose proof (flag_real _ _ _ F) as Rb. apply instant_le; auto.
        specialize (L b). unfold instant in *. lia.
    + destruct S2 as [[X _]|[[_ B]|(_ & B & e & F & Z0)]]; [discriminate|auto|]. right. split; [exact B|]. exists e. split; [exact F|].
      pose proof (flag_real _ _ _ F) as Re. pose proof (L e) as Le. destruct Z0 as [Z0|Z0].
      * left. split; [|exact Z0]. apply instant_inj; auto using real_zero. change (instant (Date 1 1 1)) with 0. unfold instant in *. lia.
      * right. apply instant_order; auto. lia.
  - intros [S1 S2]. split.
    + destruct S1 as [[B Z0]|(B & b & F & Z0)].
      * left. split; [auto|]. now apply zero_le.
      * right. split; [exact B|]. split; [reflexivity|]. exists b. split; [exact F|]. pose proof (flag_real _ _ _ F) as Rb.
        apply instant_le in Z0; auto. specialize (L b). lia.
    + destruct S2 as [B|(B & e & F & Z0)]; [auto|]. right. right. split; [reflexivity|]. split; [exact B|]. exists e. split; [exact F|].
      pose proof (flag_real _ _ _ F) as Re. destruct Z0 as [[_ Z0]|Z0]; [left; exact Z0|]. right. apply earlier_day in Z0; auto.
      specialize (L e). lia.
Qed.

(** West of it both bounds are a day late: the day of --begin is left out and the
    day of --end is taken. *)
Theorem C38_west_partial : forall E O n d, western E -> o_current O = false -> real_date d ->
  (within E O n d <-> after_begin E O n d /\ on_or_before_end E O n d).
Proof.
  intros E O n d L Cu R. unfold within, starts_before, ends_after, after_begin, on_or_before_end. rewrite Cu. split.
  - intros [S1 S2]. split.
    + destruct S1 as [[[B|X] Z0]|(B & _ & b & F & Z0)]; [left|discriminate|right].
      * split; [exact B|]. now apply zero_le.
      * split; [exact B|]. exists b. split; [exact F|]. apply instant_order; eauto using flag_real. specialize (L b). lia.
    + destruct S2 as [[X _]|[[_ B]|(_ & B & e & F & Z0)]]; [discriminate|auto|]. right. split; [exact B|]. exists e. split; [exact F|].
      pose proof (flag_real _ _ _ F) as Re. pose proof (L e) as Le. unfold instant in Le. destruct Z0 as [Z0|Z0]; [exfalso; lia|].
      destruct (proj1 (instant_le d e R Re)) as [Q|Q]; auto. unfold instant in *. lia.
  - intros [S1 S2]. split.
    + destruct S1 as [[B Z0]|(B & b & F & Z0)].
      * left. split; [auto|]. now apply zero_le.
      * right. split; [exact B|]. split; [reflexivity|]. exists b. split; [exact F|]. apply earlier_day in Z0; eauto using flag_real.
        specialize (L b). lia.
    + destruct S2 as [B|(B & e & F & Z0)]; [auto|]. right. right. split; [reflexivity|]. split; [exact B|]. exists e. split; [exact F|].
      right. pose proof (flag_real _ _ _ F) as Re. assert (instant d <= instant e) by (apply instant_le; auto; destruct Z0; auto).
      specialize (L e). lia.
Qed.

Definition text3 : str :=
  lit "2021-03-01 A" ++ [10] ++ lit "    x    $1" ++ [10] ++ lit "    y    $-1" ++ [10; 10] ++
  lit "2021-03-02 B" ++ [10] ++ lit "    x    $2" ++ [10] ++ lit "    y    $-2" ++ [10; 10] ++
  lit "2021-03-03 C" ++ [10] ++ lit "    x    $3" ++ [10] ++ lit "    z    $-3" ++ [10].
Definition files3 : list (str * str) := [(lit "j", text3)].
Definition opts3 (b e : str) (cur : bool) (args : list str) : opts := Opts (lit "j") b e cur args false false false.

Example C38_example :
  payees_cmd (env0 files3) (opts3 (lit "2021-03-02") (lit "2021/03/03") false []) = Outcome [lit "B" ++ [10]] SOk /\
  real_date (Date 2021 3 2) /\ flag_means 2021 (lit "2021-03-02") (Date 2021 3 2).
Proof.
  split; [vm_compute; reflexivity|]. assert (R : real_date (Date 2021 3 2)) by (apply real_date_iff; vm_compute; intuition discriminate).
  split; [exact R|]. left. apply (SmartFull 2021 45); [left; reflexivity| |exact R].
  apply (YMD 45 (Date 2021 3 2) (lit "2021") (lit "03") (lit "02")); (split; [reflexivity|split; [repeat constructor; vm_compute; discriminate|reflexivity]]).
Qed.

(** West of Greenwich the flags' midnight is later than the transactions': a
    transaction dated the day of --begin is left out. *)
Definition west (e : env) : env :=
  Env (e_unicode e) (e_fs e) (e_depth e) (e_ledger_file e) (e_re_ok e) (e_re_match e) (e_year e) (e_tomorrow e)
    (fun d => instant d + 5 * 3600) (e_order e) (e_tree_order e) (e_sort e) (e_now e).
Example C38_west_example :
  payees_cmd (west (env0 files3)) (opts3 (lit "2021-03-01") (lit "2021/03/03") false []) = Outcome (lines [lit "B"; lit "C"]) SOk /\
  western (west (env0 files3)) /\ eastern (env0 files3).
Proof. split; [vm_compute; reflexivity|]. split; intro d; cbn; lia. Qed.
Theorem C38_range_refuted : exists E O t path,
  fst (stream E O) = [ETxn t path] /\ t_date t = Date 2021 3 2 /\
  flag_means (e_year E 0) (o_begin O) (Date 2021 3 2) /\ o_end O = [] /\ o_current O = false /\ o_args O = [] /\
  print_cmd E O = Outcome [] SOk.
Proof.
  set (txt := lit "2021-03-02 B" ++ [10] ++ lit "    x    $2" ++ [10] ++ lit "    y    $-2" ++ [10]).
  exists (west (env0 [(lit "j", txt)])), (opts3 (lit "2021-03-02") [] false []).
  exists (Txn (Date 2021 3 2) NoState (lit "B") [Posting [] (lit "x") (Some (Amount (lit "$") 200)); Posting [] (lit "y") (Some (Amount (lit "$") (-200)))] None [] []), (lit "j").
  split; [vm_compute; reflexivity|]. split; [reflexivity|]. split; [apply C38_example|].
  split; [reflexivity|]. split; [reflexivity|]. split; [reflexivity|]. vm_compute. reflexivity.
Qed.

(** ** C39: --current *)

(** Read at [time] (nanoseconds past midnight UTC of the day [today]), the clock
    lets through everything dated up to tomorrow. *)
Theorem C39_current_partial : forall E O n d today time, o_current O = true -> real_date d ->
  e_tomorrow E n = (instant today + 86400) * second + time -> 0 < time < 86400 * second -> 0 <= instant today ->
  (within E O n d <-> 1 <= d_year d /\ day_number d <= day_number today + 1).
Proof.
  intros E O n d today time Cu R T B Pos. unfold within, starts_before, ends_after. rewrite Cu. rewrite <- (zero_le d R).
  unfold instant in *. rewrite T.
  assert (Q : day_number d * 86400 * second < (day_number today * 86400 + 86400) * second + time <-> day_number d <= day_number today + 1).
  { unfold second in *. lia. }
  split.
  - intros [[[_ Z0]|(_ & X & _)] [[_ S2]|[[X' _]|[X' _]]]]; try discriminate. split; [exact Z0|].
    destruct S2 as [S2|S2]; [|now apply Q]. exfalso. unfold second in *. lia.
  - intros [Z0 D]. split; [left; auto|]. left. split; [reflexivity|]. right. now apply Q.
Qed.

(** Read exactly at midnight it keeps the claim: everything dated up to today. *)
Theorem C39_midnight : forall E O n d today, o_current O = true -> real_date d ->
  e_tomorrow E n = (instant today + 86400) * second -> 0 <= instant today ->
  (within E O n d <-> 1 <= d_year d /\ day_number d <= day_number today).
Proof.
  intros E O n d today Cu R T Pos. unfold within, starts_before, ends_after. rewrite Cu. rewrite <- (zero_le d R).
  unfold instant in *. rewrite T.
  assert (Q : day_number d * 86400 * second < (day_number today * 86400 + 86400) * second <-> day_number d <= day_number today).
  { unfold second in *. lia. }
  split.
  - intros [[[_ Z0]|(_ & X & _)] [[_ S2]|[[X' _]|[X' _]]]]; try discriminate. split; [exact Z0|].
    destruct S2 as [S2|S2]; [|now apply Q]. exfalso. unfold second in *. lia.
  - intros [Z0 D]. split; [left; auto|]. left. split; [reflexivity|]. right. now apply Q.
Qed.

Definition nth_txn (n : nat) (E : env) (O : opts) : transaction :=
  match nth_error (fst (stream E O)) n with Some (ETxn t _) => t | _ => newTransaction end.

(** So a transaction dated tomorrow is processed. *)
Definition at_noon (e : env) : env :=
  Env (e_unicode e) (e_fs e) (e_depth e) (e_ledger_file e) (e_re_ok e) (e_re_match e) (e_year e)
    (fun _ => (instant (Date 2021 3 1) + 86400) * second + 43200 * second)
    (e_local e) (e_order e) (e_tree_order e) (e_sort e) (e_now e).
Theorem C39_current_refuted : exists E O today,
  (forall n, e_tomorrow E n = (instant today + 86400) * second + 43200 * second) /\ today = Date 2021 3 1 /\
  o_current O = true /\ o_args O = [] /\
  payees_cmd E O = Outcome (lines [lit "A"; lit "B"]) SOk /\
  exists t p, In (ETxn t p) (fst (stream E O)) /\ t_payee t = lit "B" /\ t_date t = Date 2021 3 2.
Proof.
  exists (at_noon (env0 files3)), (opts3 [] [] true []), (Date 2021 3 1). split; [reflexivity|].
  split; [reflexivity|]. split; [reflexivity|]. split; [reflexivity|]. split; [vm_compute; reflexivity|].
  exists (nth_txn 1 (at_noon (env0 files3)) (opts3 [] [] true [])), (lit "j").
  split; [apply nth_error_In with (n := 1%nat); vm_compute; reflexivity|]. split; vm_compute; reflexivity.
Qed.
Example C39_example : within (at_noon (env0 files3)) (opts3 [] [] true []) 0 (Date 2021 3 1).
Proof.
  assert (R : forall k, 1 <= k <= 31 -> real_date (Date 2021 3 k)) by (intros; apply real_date_iff; cbn; lia).
  apply (C39_current_partial _ _ 0 (Date 2021 3 1) (Date 2021 3 1) (43200 * second)); try reflexivity; try apply R; try lia.
  - unfold second. lia.
  - vm_compute. discriminate.
  - cbn. vm_compute. intuition discriminate.
Qed.

Definition at_midnight (e : env) : env :=
  Env (e_unicode e) (e_fs e) (e_depth e) (e_ledger_file e) (e_re_ok e) (e_re_match e) (e_year e)
    (fun _ => (instant (Date 2021 3 1) + 86400) * second)
    (e_local e) (e_order e) (e_tree_order e) (e_sort e) (e_now e).
Example C39_midnight_example : within (at_midnight (env0 files3)) (opts3 [] [] true []) 0 (Date 2021 3 1) /\
  ~ within (at_midnight (env0 files3)) (opts3 [] [] true []) 0 (Date 2021 3 2).
Proof.
  assert (R : forall k, 1 <= k <= 31 -> real_date (Date 2021 3 k)) by (intros; apply real_date_iff; cbn; lia).
  assert (P : 0 <= instant (Date 2021 3 1)) by (vm_compute; discriminate).
  rewrite !(fun d R => C39_midnight (at_midnight (env0 files3)) (opts3 [] [] true []) 0 d (Date 2021 3 1) eq_refl R eq_refl P)
    by (apply R; lia).
  vm_compute. split; [intuition discriminate|]. intros [_ X]. now apply X.
Qed.

(** ** C42: print *)
Definition selected (sel : list (used * list posting)) : list transaction := map (fun x => u_txn (fst x)) sel.

Lemma print_run_spec : forall E O fs, sane_clock E -> orders E ->
  match print_run E O fs with
  | (s, SOk) => readable E O /\ h_out s = [] /\
      exists sel, picks E O fs (txns 0 (fst (stream E O))) sel /\ h_data s = selected sel
  | (s, _) => ~ readable E O /\ h_out s = []
  end.
Proof.
  intros E O fs C Or. unfold print_run. set (h := Some _). set (s0 := HS 0 [] []).
  set (I := fun (sel : list (used * list posting)) (s : hstate (list transaction)) => h_out s = [] /\ h_data s = selected sel).
  assert (Out : h_out (fst (parse_cmd E O h None s0)) = []).
  { pose proof (parse_cmd_fold E O _ h None s0) as F. destruct (stream E O) as [evs r].
    assert (X : forall evs s, h_out s = [] -> h_out (fst (deliver_all h None s evs)) = []).
    { clear. induction evs as [|[t p|pt p] evs IH]; intros s H; [exact H| |cbn; auto]. cbn [deliver_all deliver].
      unfold h at 1. unfold checked. destruct (checkAgainstFilters E O fs (h_n s) t) as [[m ps]|e|]; try exact H.
      destruct (negb m && is_nil ps); [apply IH; exact H|]. cbn. apply IH. exact H. }
    specialize (X evs s0 eq_refl). destruct (deliver_all h None s0 evs) as [s' r']. destruct F as [-> _]. exact X. }
  destruct (parse_cmd E O h None s0) as [s r] eqn:R. cbn [fst] in Out.
  assert (T : r = SOk <-> readable E O).
  { split.
    - intros ->. apply parse_cmd_ok in R as [St R].
      destruct (checked_run E O C Or _ fs (print_handler) None (fun _ _ => True)) with (evs := fst (stream E O)) (sel := @nil (used * list posting)) (s := s0) (s' := s) as [F _]; auto.
      + intros sel s1 u ps s' _ _ _ _ _ H. inversion H; subst. auto.
      + intros sel s1 pt p s' _ H. inversion H; subst. auto.
      + split; [exact St|exact F].
    - intros [St F].
      destruct (checked_total E O C Or _ fs print_handler None (fun _ => True) (fun _ => True)) with (evs := fst (stream E O)) (s := s0) as [s' [R' _]]; auto.
      + intros s1 n t ps p _ _ _. eexists. split; [reflexivity|]. auto.
      + intros s1 pt p _ _. exists s1. auto.
      + apply Forall_forall. auto.
      + assert (Q : parse_cmd E O h None s0 = (s', SOk)) by (apply parse_cmd_ok; auto). congruence. }
  destruct r; try (split; [intro X; apply T in X; discriminate|exact Out]).
  split; [now apply T|]. split; [exact Out|]. apply parse_cmd_ok in R as [St R].
  destruct (checked_run E O C Or _ fs (print_handler) None (fun sel s => h_data s = selected sel)) with (evs := fst (stream E O)) (sel := @nil (used * list posting)) (s := s0) (s' := s) as [_ (more & P & D)]; auto.
  - intros sel s1 u ps s' H _ _ _ _ K. inversion K; subst. cbn. rewrite H. unfold selected. rewrite map_app. auto.
  - intros sel s1 pt p s' H K. inversion K; subst. auto.
  - eauto.
Qed.

Definition date_ordered (ts : list transaction) : Prop :=
  StronglySorted (fun a b => ~ earlier (t_date b) (t_date a)) ts.

Lemma selected_dated : forall E O fs sel t, picks E O fs (txns 0 (fst (stream E O))) sel -> In t (selected sel) -> real_date (t_date t).
Proof.
  intros E O fs sel t P I. apply in_map_iff in I as ([u ps] & <- & I). apply (picks_in _ _ _ _ _ _ _ P) in I as (I & _).
  apply txns_in in I. pose proof (stream_dated E O) as D. rewrite Forall_forall in D. apply D in I. apply I.
Qed.

Lemma sorted_dates : forall E ts, sorts E -> (forall t, In t ts -> real_date (t_date t)) ->
  Permutation (e_sort E ts) ts /\ date_ordered (e_sort E ts).
Proof.
  intros E ts So R. destruct (So ts) as [P S]. split; [exact P|].
  assert (R' : forall t, In t (e_sort E ts) -> real_date (t_date t)) by (intros t I; apply R; eapply Permutation_in; eauto).
  revert S R'. generalize (e_sort E ts). clear. induction l as [|x l IH]; intros S R; [constructor|].
  inversion S as [|? ? S' F]; subst. constructor; [apply IH; auto; intros; apply R; now right|].
  rewrite Forall_forall in *. intros y Iy X. apply (F y Iy). apply instant_order; auto; apply R; [now right|now left].
Qed.

Theorem C42_print : forall E O fs, sane_clock E -> orders E -> sorts E -> filters_for E (o_args O) fs ->
  (readable E O -> exists sel ts, picks E O fs (txns 0 (fst (stream E O))) sel /\
     Permutation ts (selected sel) /\ date_ordered ts /\
     print_cmd E O = Outcome (lines (map transaction_string ts)) SOk) /\
  (~ readable E O -> r_out (print_cmd E O) = [] /\ r_status (print_cmd E O) <> SOk).
Proof.
  intros E O fs C Or So F. apply makeFilters_spec in F. pose proof (print_run_spec E O fs C Or) as K.
  unfold print_cmd, with_filters. rewrite F. unfold finish. destruct (print_run E O fs) as [s [| | | |]].
  1: { destruct K as (Rd & Out & sel & P & D). split; [|contradiction]. intros _. exists sel, (e_sort E (selected sel)).
    split; [exact P|]. destruct (sorted_dates E (selected sel) So) as [Pm S]; [intros; eapply selected_dated; eauto|].
    split; [exact Pm|]. split; [exact S|]. rewrite Out, D. unfold lines. rewrite map_map. reflexivity. }
  all: destruct K as [Rd Out]; (split; [contradiction|]); intros _; cbn; (split; [exact Out|discriminate]).
Qed.

Lemma env0_sorts : forall files, sorts (env0 files).
Proof.
  intros files ts. split; [apply isort_perm|].
  assert (X : StronglySorted (le (fun a b => date_before (t_date a) (t_date b))) (isort (fun a b => date_before (t_date a) (t_date b)) ts)).
  { apply isort_sorted; unfold le, date_before.
    - intro a. apply Z.ltb_irrefl.
    - intros a b c. rewrite !Z.ltb_lt. lia.
    - intros a b c. rewrite !Z.ltb_ge. lia. }
  cbn [env0 e_sort]. induction X as [|x l S IH F]; [constructor|]. constructor; [exact IH|]. rewrite Forall_forall in *. intros y Iy.
  specialize (F y Iy). unfold le, date_before in F. apply Z.ltb_ge in F. lia.
Qed.

Definition readableb (E : env) (O : opts) : bool :=
  match o_begin O, o_end O, snd (stream E O) with [], [], SOk => true | _, _, _ => false end.
Lemma readable_noflags : forall E O, readableb E O = true -> readable E O.
Proof.
  intros E O H. unfold readableb in H. destruct (o_begin O) eqn:B; [|discriminate]. destruct (o_end O) eqn:D; [|discriminate].
  destruct (snd (stream E O)) eqn:S; try discriminate. split; [exact S|]. apply Forall_forall. intros u _.
  split; left; assumption.
Qed.

Definition text_order : str :=
  lit "2021-03-03 C" ++ [10] ++ lit "    x    $3" ++ [10] ++ lit "    z    $-3" ++ [10; 10] ++
  lit "2021-03-01 A" ++ [10] ++ lit "    x    $1" ++ [10] ++ lit "    y    $-1" ++ [10].
Example C42_example :
  let E := env0 [(lit "j", text_order)] in let O := opts3 [] [] false [] in
  sane_clock E /\ orders E /\ sorts E /\ filters_for E (o_args O) [] /\ readable E O /\
  print_cmd E O = Outcome [lit "2021-03-01   A" ++ [10] ++ lit "    x    $1.00" ++ [10] ++ lit "    y    $-1.00" ++ [10; 10];
                           lit "2021-03-03   C" ++ [10] ++ lit "    x    $3.00" ++ [10] ++ lit "    z    $-3.00" ++ [10; 10]] SOk.
Proof.
  intros E O. split; [apply env0_clock|]. split; [apply env0_orders|]. split; [apply env0_sorts|].
  split; [apply makeFilters_spec; reflexivity|]. split; [apply readable_noflags; vm_compute; reflexivity|]. vm_compute. reflexivity.
Qed.

(** ** C40, C41: accounts and payees *)
Definition uses (sel : list used) (a : str) : Prop := exists u p, In u sel /\ In p (t_postings (u_txn u)) /\ po_account p = a.
Definition pays (sel : list used) (a : str) : Prop := exists u, In u sel /\ t_payee (u_txn u) = a.

Lemma in_order_in : forall E n A (l : list A) x, orders E -> (In x (e_order E n A l) <-> In x l).
Proof.
  intros E n A l x [O _]. split; apply Permutation_in; [apply O|symmetry; apply O].
Qed.

Lemma listing : forall E n l (h : str -> bool), orders E -> NoDup l ->
  let out := sort_strings (filter h (e_order E n str l)) in
  ascending out /\ forall x, In x out <-> In x l /\ h x = true.
Proof.
  intros E n l h Or N out. split.
  - apply sorted_strict. apply NoDup_filter. eapply Permutation_NoDup; [symmetry; apply (proj1 Or)|exact N].
  - intro x. unfold out. rewrite <- (in_order_in E n str l x Or), <- filter_In. split; apply Permutation_in; [apply sort_strings_perm|symmetry; apply sort_strings_perm].
Qed.
Lemma listing_all : forall E n l, orders E -> NoDup l ->
  let out := sort_strings (e_order E n str l) in ascending out /\ forall x, In x out <-> In x l.
Proof.
  intros E n l Or N out. destruct (listing E n l (fun _ => true) Or N) as [A B].
  assert (X : forall m : list str, filter (fun _ => true) m = m) by (induction m as [|? m IH]; cbn; [|rewrite IH]; reflexivity).
  rewrite X in A, B. split; [exact A|]. intro x. unfold out. rewrite (B x). tauto.
Qed.

Lemma run_readable : forall E O D k (I : list used -> hstate D -> Prop) s0, sane_clock E -> h_n s0 = 0%nat -> I [] s0 -> 
  (forall sel s, I sel s -> I sel (HS (Datatypes.S (h_n s)) (h_out s) (h_data s))) ->
  (forall sel s u, I sel s -> exists s', k s (u_txn u) (u_path u) = (s', SOk) /\ I (sel ++ [u]) s' /\ h_n s' = h_n s) ->
  let '(s, r) := parse_cmd E O (Some (date_checked E O k)) None s0 in
  (r = SOk <-> readable E O) /\ (r = SOk -> exists sel, in_range E O (txns 0 (fst (stream E O))) sel /\ I sel s).
Proof.
  intros E O D k I s0 C Hn H0 I1 I2. destruct (parse_cmd E O (Some (date_checked E O k)) None s0) as [s r] eqn:R.
  pose proof (date_checked_run E O C D k I I1 I2 (fst (stream E O)) [] s0 H0) as K. rewrite Hn in K.
  destruct K as [(F & s' & more & Dl & Rg & Im)|(F & s' & e & Dl)].
  - split.
    + split; [intros ->; apply parse_cmd_ok in R as [St _]; now split|]. intros [St _].
      assert (parse_cmd E O (Some (date_checked E O k)) None s0 = (s', SOk)) by (apply parse_cmd_ok; auto). congruence.
    + intros ->. apply parse_cmd_ok in R as [_ R]. rewrite Dl in R. inversion R; subst. exists more. auto.
  - split; [split|].
    + intros ->. apply parse_cmd_ok in R as [_ R]. congruence.
    + intros [_ X]. contradiction.
    + intros ->. apply parse_cmd_ok in R as [_ R]. congruence.
Qed.

Theorem C40_accounts : forall E O fs, sane_clock E -> orders E -> filters_for E (o_args O) fs ->
  (readable E O -> exists sel names, in_range E O (txns 0 (fst (stream E O))) sel /\
     accounts_cmd E O = Outcome (lines names) SOk /\ ascending names /\
     forall a, In a names <-> uses sel a /\ (fs = [] \/ exists f, In f fs /\ e_re_match E (f_regex f) a = true)) /\
  (~ readable E O -> r_status (accounts_cmd E O) <> SOk).
Proof.
  intros E O fs C Or F. apply makeFilters_spec in F. unfold accounts_cmd, with_filters. rewrite F.
  pose proof (run_readable E O (list str) accounts_handler
    (fun sel s => h_out s = [] /\ NoDup (h_data s) /\ forall a, In a (h_data s) <-> uses sel a) (HS 0 [] []) C eq_refl) as K.
  fold (accounts_run E O) in K. unfold finish. destruct (accounts_run E O) as [s r]. destruct K as [T K].
  - split; [reflexivity|]. split; [constructor|]. intro a. split; [intros []|]. intros (u & p & [] & _).
  - intros sel s1 H. exact H.
  - intros sel s1 u (Ho & N & H). eexists. split; [reflexivity|]. cbn. split; [|reflexivity]. split; [exact Ho|].
    split; [now apply set_adds_nodup|]. intro a. rewrite set_adds_in, H. unfold uses. split.
    + intros [(v & p & I & Ip & Q)|(p & Ip & Q)].
      * exists v, p. split; [apply in_app_iff; auto|]. auto.
      * exists u, p. split; [apply in_app_iff; right; now left|]. auto.
    + intros (v & p & I & Ip & Q). apply in_app_iff in I as [I|[<-|[]]]; [left|right]; eauto.
  - split.
    + intro Rd. apply T in Rd. subst r. destruct (K eq_refl) as (sel & Rg & Ho & N & H). exists sel.
      exists (accounts_prepare E fs (e_order E (h_n s) str (h_data s))). split; [exact Rg|]. rewrite Ho. split; [reflexivity|].
      unfold accounts_prepare. destruct fs as [|f fs].
      * destruct (listing_all E (h_n s) (h_data s) Or N) as [A B]. split; [exact A|]. intro a. rewrite B, H. tauto.
      * destruct (listing E (h_n s) (h_data s) (fun a => existsb (fun f => matchesString (e_re_match E) f a) (f :: fs)) Or N) as [A B].
        split; [exact A|]. intro a. rewrite B, H, existsb_exists. split.
        -- intros [U (g & Ig & M)]. split; [exact U|]. right. exists g. auto.
        -- intros [U [X|(g & Ig & M)]]; [discriminate|]. split; [exact U|]. exists g. auto.
    + intro Rd. destruct r; cbn; try discriminate. exfalso. apply Rd. now apply T.
Qed.

Example C40_example :
  accounts_cmd (env0 files3) (opts3 (lit "2021-03-02") [] false []) = Outcome (lines [lit "x"; lit "y"; lit "z"]) SOk /\
  accounts_cmd (env1 files3) (opts3 [] [] false [lit "z"; lit "q"]) = Outcome (lines [lit "z"]) SOk /\
  readable (env1 files3) (opts3 [] [] false [lit "z"; lit "q"]).
Proof. split; [vm_compute; reflexivity|]. split; [vm_compute; reflexivity|]. apply readable_noflags. vm_compute. reflexivity. Qed.

(** Arguments to payees are taken as they are. *)
Theorem C41_payees : forall E O fs, sane_clock E -> orders E -> filters_for E (o_args O) fs ->
  Forall (fun a => e_re_ok E (case_text E a) = true) (o_args O) ->
  (readable E O -> exists sel names, in_range E O (txns 0 (fst (stream E O))) sel /\
     payees_cmd E O = Outcome (lines names) SOk /\ ascending names /\
     forall x, In x names <-> pays sel x /\
       (o_args O = [] \/ exists a, In a (o_args O) /\ e_re_match E (case_text E a) x = true)) /\
  (~ readable E O -> r_status (payees_cmd E O) <> SOk).
Proof.
  intros E O fs C Or F Ok. apply makeFilters_spec in F. unfold payees_cmd, with_filters. rewrite F.
  pose proof (run_readable E O (list str) payees_handler
    (fun sel s => h_out s = [] /\ NoDup (h_data s) /\ forall a, In a (h_data s) <-> pays sel a) (HS 0 [] []) C eq_refl) as K.
  fold (payees_run E O) in K. unfold finish. destruct (payees_run E O) as [s r]. destruct K as [T K].
  - split; [reflexivity|]. split; [constructor|]. intro a. split; [intros []|]. intros (u & [] & _).
  - intros sel s1 H. exact H.
  - intros sel s1 u (Ho & N & H). eexists. split; [reflexivity|]. cbn. split; [|reflexivity]. split; [exact Ho|].
    split; [now apply set_add_nodup|]. intro a. rewrite set_add_in, H. unfold pays. split.
    + intros [(v & I & Q)|Q].
      * exists v. split; [apply in_app_iff; auto|]. auto.
      * exists u. split; [apply in_app_iff; right; now left|]. auto.
    + intros (v & I & Q). apply in_app_iff in I as [I|[<-|[]]]; [left|right]; eauto.
  - split.
    + intro Rd. apply T in Rd. subst r. destruct (K eq_refl) as (sel & Rg & Ho & N & H). exists sel.
      unfold payees_prepare. destruct (o_args O) as [|a args].
      * exists (sort_strings (e_order E (h_n s) str (h_data s))). split; [exact Rg|]. rewrite Ho. split; [reflexivity|].
        destruct (listing_all E (h_n s) (h_data s) Or N) as [A B]. split; [exact A|]. intro x. rewrite B, H. tauto.
      * set (rs := map (smart_case (e_unicode E)) (a :: args)).
        assert (find (fun r => negb (e_re_ok E r)) rs = None) as ->.
        { destruct (find _ rs) as [r|] eqn:Fd; [|reflexivity]. apply find_some in Fd as [I Bad]. exfalso.
          apply in_map_iff in I as (y & <- & I). rewrite Forall_forall in Ok. apply Ok in I. apply negb_true_iff in Bad.
          change (e_re_ok E (smart_case (e_unicode E) y) = true) in I. congruence. }
        exists (sort_strings (filter (fun p => existsb (fun r => e_re_match E r p) rs) (e_order E (h_n s) str (h_data s)))).
        split; [exact Rg|]. rewrite Ho. split; [reflexivity|].
        destruct (listing E (h_n s) (h_data s) (fun p => existsb (fun r => e_re_match E r p) rs) Or N) as [A B].
        split; [exact A|]. intro x. rewrite B, H, existsb_exists. split.
        -- intros [U (r & I & M)]. split; [exact U|]. right. apply in_map_iff in I as (y & <- & I). exists y. auto.
        -- intros [U [X|(y & I & M)]]; [discriminate|]. split; [exact U|]. exists (case_text E y). split; [|exact M].
           apply in_map_iff. exists y. auto.
    + intro Rd. destruct r; cbn; try discriminate. exfalso. apply Rd. now apply T.
Qed.

Example C41_example :
  payees_cmd (env1 files3) (opts3 [] [] false [lit "C"; lit "A"; lit "q"]) = Outcome (lines [lit "A"; lit "C"]) SOk /\
  readable (env1 files3) (opts3 [] [] false [lit "C"; lit "A"; lit "q"]).
Proof. split; [vm_compute; reflexivity|]. apply readable_noflags. vm_compute. reflexivity. Qed.
