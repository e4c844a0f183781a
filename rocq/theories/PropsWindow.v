(** * C115: an empty range of dates; C116: a wider range of dates *)
From Verif Require Import Base BaseFacts Utf8 Unicode GoTime Strconv Display Journal Lexer Parser Account Reporting Cmd FlatSpec Spec TextSpec Sample
  TreeSpec TreeFacts ReportSpec ReportFacts CmdSpec CmdFacts BalanceFacts PropsCmd PropsBalance PropsPrint PropsReread PropsAgain.

Lemma flag_given : forall now x d, flag_means now x d -> x <> [].
Proof.
  intros now x d X ->. destruct X as [X|X]; inversion X; subst.
  - match goal with H : numeral 4 [] _ |- _ => destruct H as [K _]; discriminate K end.
  - match goal with H : ?l ++ _ = [] |- _ => destruct l; discriminate H end.
  - match goal with H : ?l ++ _ = [] |- _ => destruct l; discriminate H end.
  - match goal with H : ymd_text _ _ [] |- _ => inversion H as [y0 ? ? ? ? ? K]; destruct y0; discriminate K end.
Qed.

(** Each flag is a date, whenever the clock is read. *)
Definition flag_always (E : env) (x : str) (d : date) : Prop := forall n, flag_means (e_year E n) x d.

Lemma window : forall E O x y dx dy n d, sane_clock E -> o_current O = false -> flag_always E x dx -> flag_always E y dy ->
  (within E (with_dates O x y) n d <-> e_local E dx <= instant d /\ (e_local E dy = 0 \/ instant d < e_local E dy)).
Proof.
  intros E O x y dx dy n d C Cu Hx Hy. unfold within, starts_before, ends_after. cbn [with_dates o_begin o_end o_current]. rewrite Cu.
  pose proof (flag_given _ _ _ (Hx n)) as Nx. pose proof (flag_given _ _ _ (Hy n)) as Ny. split.
  - intros [[[[?|?] _]|(_ & _ & dx' & X & I1)] [(? & _)|[(_ & ?)|(_ & _ & dy' & Y & I2)]]]; try discriminate; try contradiction.
    rewrite (flag_unique E (2 * n) x dx dx' C (Hx _) X), (flag_unique E (2 * n + 1) y dy dy' C (Hy _) Y). auto.
  - intros [I1 I2]. split.
    + right. split; [exact Nx|]. split; [reflexivity|]. exists dx. auto.
    + right. right. split; [reflexivity|]. split; [exact Ny|]. exists dy. auto.
Qed.
Lemma window_readable : forall E O x y dx dy, snd (stream E O) = SOk -> flag_always E x dx -> flag_always E y dy -> CmdSpec.readable E (with_dates O x y).
Proof. intros E O x y dx dy St Hx Hy. split; [exact St|]. apply Forall_forall. intros u _. split; right; right; [exists dx; apply Hx|exists dy; apply Hy]. Qed.

Lemma numeral_by : forall s k v, length s = k -> forallb is_digit s = true -> numeral_value s = v -> numeral k s v.
Proof.
  intros s k v H1 H2 H3. split; [exact H1|]. split; [|exact H3]. rewrite forallb_forall in H2. apply Forall_forall. intros c I.
  specialize (H2 c I). unfold is_digit in H2. unfold digit. lia.
Qed.
Lemma flag_full : forall E d Y M D, numeral 4 Y (d_year d) -> numeral 2 M (d_month d) -> numeral 2 D (d_day d) -> real_date d ->
  flag_always E (Y ++ [45] ++ M ++ [45] ++ D) d.
Proof. intros E d Y M D HY HM HD R n. left. apply (SmartFull _ 45); [now left| |exact R]. now apply (YMD 45 d Y M D). Qed.

(** ** C115 *)
Lemma picks_none : forall E O fs us sel, (forall n d, ~ within E O n d) -> picks E O fs us sel -> sel = [].
Proof. intros E O fs us sel N P. induction P as [|u us sel _ _ IH|u us sel ps W _ _ _ _ _]; [reflexivity|exact IH|]. destruct (N _ _ W). Qed.
Lemma range_none : forall E O us sel, (forall n d, ~ within E O n d) -> in_range E O us sel -> sel = [].
Proof. intros E O us sel N P. induction P as [|u us sel _ _ IH|u us sel W _ _]; [reflexivity|exact IH|]. destruct (N _ _ W). Qed.

(** Partial: the end date is not the instant zero (0001-01-01 at Greenwich).
    The report on nothing: no rows (the flat one shows the root, without a name), the rule, and zero. *)
Definition empty_report (flat : bool) : list str :=
  [(if flat then rep 16 32 ++ lit "0.00  " else []) ++ [10]; lit "--------------------" ++ [10]; rep 16 32 ++ lit "0.00" ++ [10]].

Theorem C115_nothing_partial : forall E O a b da db fs, sane_clock E -> orders E -> sorts E -> filters_for E (o_args O) fs ->
  o_current O = false -> snd (stream E O) = SOk -> flag_always E a da -> flag_always E b db ->
  e_local E db <= e_local E da -> e_local E db <> 0 ->
  print_cmd E (with_dates O a b) = Outcome [] SOk /\
  accounts_cmd E (with_dates O a b) = Outcome [] SOk /\
  (Forall (fun x => e_re_ok E (case_text E x) = true) (o_args O) -> payees_cmd E (with_dates O a b) = Outcome [] SOk) /\
  balance_cmd E (with_dates O a b) = Outcome (empty_report (o_flatten O)) SOk.
Proof.
  intros E O a b da db fs C Or So F Cu St Fa Fb L Nz. pose proof (window_readable E O a b da db St Fa Fb) as R.
  assert (N : forall n d, ~ within E (with_dates O a b) n d).
  { intros n d W. apply (window E O a b da db n d C Cu Fa Fb) in W. lia. }
  split; [|split; [|split]].
  - destruct (C42_print E (with_dates O a b) fs C Or So F) as [K _]. destruct (K R) as (sel & ts & P & Pm & _ & Q).
    rewrite (picks_none _ _ _ _ _ N P) in Pm. apply Permutation_sym, Permutation_nil in Pm. subst ts. exact Q.
  - destruct (C40_accounts E (with_dates O a b) fs C Or F) as [K _]. destruct (K R) as (sel & names & P & Q & _ & I).
    rewrite (range_none _ _ _ _ N P) in I. rewrite Q. destruct names as [|x names]; [reflexivity|exfalso].
    destruct (proj1 (I x) (or_introl eq_refl)) as [U _]. destruct U as (u & p & [] & _).
  - intro Re. destruct (C41_payees E (with_dates O a b) fs C Or F Re) as [K _]. destruct (K R) as (sel & names & P & Q & _ & I).
    rewrite (range_none _ _ _ _ N P) in I. rewrite Q. destruct names as [|x names]; [reflexivity|exfalso].
    destruct (proj1 (I x) (or_introl eq_refl)) as [U _]. destruct U as (u & [] & _).
  - destruct (C61_balance E (with_dates O a b) fs C Or F) as [Ok K].
    assert (S : r_status (balance_cmd E (with_dates O a b)) = SOk).
    { apply Ok. split; [exact R|]. destruct (C42_print E (with_dates O a b) fs C Or So F) as [K' _]. destruct (K' R) as (sel & ts & P & _).
      exists sel. split; [exact P|]. rewrite (picks_none _ _ _ _ _ N P). constructor. }
    destruct (K S) as (sel & t & P & D & H & Q). rewrite (picks_none _ _ _ _ _ N P) in H, Q. cbn [taken flat_map] in H, Q.
    assert (E1 : exists d, t = Acc d [] /\ holds [] [] d).
    { destruct t as [d ch]. exists d. assert (Hd : node (Acc d ch) [] d) by now apply node_nil. pose proof (proj1 (H [] d) Hd) as [_ Hh]. split; [|exact Hh].
      destruct ch as [|[k c] ch]; [reflexivity|exfalso]. destruct c as [d' ch'].
      assert (X : node (Acc d ((k, Acc d' ch') :: ch)) [k] d') by (eapply NodeBelow; [now left|constructor]).
      destruct (proj1 (H _ _) X) as [[Z|[(p & [] & _) _]] _]. discriminate Z. }
    destruct E1 as (d & -> & Hd). destruct (balance_cmd E (with_dates O a b)) as [out st]. cbn [r_out r_status] in *. subst st out. f_equal.
    cbn [o_flatten o_collapse with_dates]. unfold empty_report.
    assert (Am : a_amount d = Amount [] 0 /\ a_path d = []).
    { destruct Hd. split; cbn in *; destruct (a_amount d); cbn in *; congruence. }
    destruct (o_flatten O), (o_collapse O); destruct d as [nm pa am po]; cbn [a_amount a_path] in Am; destruct Am as [-> ->]; vm_compute; reflexivity.
Qed.

(** False without that last condition: the end date 0001-01-01, at Greenwich, is
    taken for no end at all. *)
Definition day_one : str := lit "0001-01-01".
Theorem C115_day_one_refuted : exists E O, sane_clock E /\ orders E /\ sorts E /\ o_args O = [] /\ o_current O = false /\ snd (stream E O) = SOk /\
  flag_always E day_one (Date 1 1 1) /\ r_out (accounts_cmd E (with_dates O day_one day_one)) = lines [lit "x"; lit "x:y"; lit "z"].
Proof.
  exists (env1 [(lit "j", text_same)]), (opts0 "j"). split; [apply env1_clock|]. split; [apply env1_orders|]. split; [exact (env0_sorts [])|].
  split; [reflexivity|]. split; [reflexivity|]. split; [vm_compute; reflexivity|]. split; [|vm_compute; reflexivity].
  apply (flag_full _ (Date 1 1 1) (lit "0001") (lit "01") (lit "01")); try (apply numeral_by; reflexivity). left. cbn. split; [auto|lia].
Qed.

(** ** C116: a wider range selects more *)
Lemma picks_wider : forall E O O' fs, (forall n d, within E O n d -> within E O' n d) ->
  forall us sel sel', picks E O fs us sel -> picks E O' fs us sel' -> exists rest, Permutation (selected sel') (selected sel ++ rest).
Proof.
  intros E O O' fs W us sel sel' P. revert sel'. induction P as [|u us sel No _ IH|u us sel ps Wi Ht Pm Wh _ IH]; intros sel' P'.
  - inversion P'. exists []. constructor.
  - inversion P' as [|? ? ? No' P2|? ? ? ps' W' H' Pm' Wh' P2]; subst; destruct (IH _ P2) as [rest R]; [eauto|].
    exists (u_txn u :: rest). cbn. rewrite R. apply Permutation_middle.
  - inversion P' as [|? ? ? No' P2|? ? ? ps' W' H' Pm' Wh' P2]; subst; destruct (IH _ P2) as [rest R].
    + exfalso. destruct No' as [No'|No']; [apply No', W, Wi|congruence].
    + exists rest. cbn. now constructor.
Qed.
Lemma range_wider : forall E O O', (forall n d, within E O n d -> within E O' n d) ->
  forall us sel sel', in_range E O us sel -> in_range E O' us sel' -> forall u, In u sel -> In u sel'.
Proof.
  intros E O O' W us sel sel' P. revert sel'. induction P as [|u us sel No _ IH|u us sel Wi _ IH]; intros sel' P' v I.
  - destruct I.
  - inversion P' as [|? ? ? No' P2|? ? ? W' P2]; subst; [eauto|right; eauto].
  - inversion P' as [|? ? ? No' P2|? ? ? W' P2]; subst; [destruct No'; auto|]. destruct I as [->|I]; [now left|right; eauto].
Qed.

(** A flag left out, or the earlier (later) of the two dates. *)
Definition begins_no_later (E : env) (a' a : str) : Prop :=
  exists d, flag_always E a d /\ ((a' = [] /\ 0 <= e_local E d) \/ exists d', flag_always E a' d' /\ e_local E d' <= e_local E d).
Definition ends_no_earlier (E : env) (b' b : str) : Prop :=
  b' = [] \/ exists d d', flag_always E b d /\ flag_always E b' d' /\ e_local E d <> 0 /\ e_local E d <= e_local E d'.

Theorem C116_wider : forall E O a b a' b' fs, sane_clock E -> orders E -> sorts E -> filters_for E (o_args O) fs ->
  o_current O = false -> snd (stream E O) = SOk -> (b = [] \/ exists d, flag_always E b d) ->
  begins_no_later E a' a -> ends_no_earlier E b' b ->
  (exists out rest out', print_cmd E (with_dates O a b) = Outcome out SOk /\ print_cmd E (with_dates O a' b') = Outcome out' SOk /\
     Permutation out' (out ++ rest)) /\
  (forall cmd, cmd = accounts_cmd \/ cmd = payees_cmd /\ Forall (fun x => e_re_ok E (case_text E x) = true) (o_args O) ->
     exists names names', cmd E (with_dates O a b) = Outcome (lines names) SOk /\ cmd E (with_dates O a' b') = Outcome (lines names') SOk /\
       ascending names /\ ascending names' /\ forall x, In x names -> In x names').
Proof.
  intros E O a b a' b' fs C Or So F Cu St Gb Ba Eb.
  assert (Na : a <> []) by (destruct Ba as (d & Fd & _); exact (flag_given _ _ _ (Fd 0%nat))).
  assert (W : forall n d, within E (with_dates O a b) n d -> within E (with_dates O a' b') n d).
  { intros n d [S1 S2]. cbn in Cu. split.
    - destruct Ba as (d0 & Fd & Ha). destruct S1 as [[[X|X] _]|(_ & _ & d1 & X & I1)]; [contradiction|cbn in X; congruence|].
      cbn [with_dates o_begin] in X. rewrite (flag_unique E (2 * n) a d1 d0 C X (Fd _)) in I1.
      destruct Ha as [[-> H0]|(d' & Fd' & L)]; [left; cbn; split; [now left|lia]|].
      right. cbn [with_dates o_begin o_current]. split; [exact (flag_given _ _ _ (Fd' 0%nat))|]. split; [exact Cu|]. exists d'. split; [apply Fd'|lia].
    - destruct Eb as [->|(d0 & d' & Fd & Fd' & Nz & L)]; [right; left; cbn; auto|]. right. right. cbn [with_dates o_end o_current].
      split; [exact Cu|]. split; [exact (flag_given _ _ _ (Fd' 0%nat))|]. exists d'. split; [apply Fd'|].
      destruct S2 as [[X _]|[(_ & X)|(_ & _ & d1 & X & I1)]]; [cbn in X; congruence|cbn in X; subst b; destruct (flag_given _ _ _ (Fd 0%nat) eq_refl)|].
      cbn [with_dates o_end] in X. rewrite (flag_unique E (2 * n + 1) b d1 d0 C X (Fd _)) in I1. lia. }
  assert (R : CmdSpec.readable E (with_dates O a b)).
  { split; [exact St|]. apply Forall_forall. intros u _. split; cbn.
    - destruct Ba as (d & Fd & _). right. right. exists d. apply Fd.
    - destruct Gb as [->|[d Fd]]; [now left|right; right; exists d; apply Fd]. }
  assert (R' : CmdSpec.readable E (with_dates O a' b')).
  { split; [exact St|]. apply Forall_forall. intros u _. split; cbn.
    - destruct Ba as (d & _ & [[-> _]|(d' & Fd & _)]); [now left|right; right; exists d'; apply Fd].
    - destruct Eb as [->|(_ & d' & _ & Fd & _)]; [now left|right; right; exists d'; apply Fd]. }
  split.
  - destruct (C42_print E (with_dates O a b) fs C Or So F) as [K _]. destruct (K R) as (sel & ts & P & Pm & _ & Q).
    destruct (C42_print E (with_dates O a' b') fs C Or So F) as [K' _]. destruct (K' R') as (sel' & ts' & P' & Pm' & _ & Q').
    destruct (picks_wider E _ _ fs W _ _ _ P P') as [rest X].
    exists (lines (map transaction_string ts)), (lines (map transaction_string rest)), (lines (map transaction_string ts')).
    split; [exact Q|]. split; [exact Q'|]. unfold lines. rewrite !map_map, <- map_app. apply Permutation_map. now rewrite Pm', X, Pm.
  - intros cmd [->|[-> Re]].
    + destruct (C40_accounts E (with_dates O a b) fs C Or F) as [K _]. destruct (K R) as (sel & names & P & Q & A & I).
      destruct (C40_accounts E (with_dates O a' b') fs C Or F) as [K' _]. destruct (K' R') as (sel' & names' & P' & Q' & A' & I').
      exists names, names'. split; [exact Q|]. split; [exact Q'|]. split; [exact A|]. split; [exact A'|].
      intros x J. apply I'. apply I in J as [(u & p & Iu & Ip & Ea) J]. split; [|exact J]. exists u, p. split; [|auto].
      exact (range_wider E _ _ W _ _ _ P P' u Iu).
    + destruct (C41_payees E (with_dates O a b) fs C Or F Re) as [K _]. destruct (K R) as (sel & names & P & Q & A & I).
      destruct (C41_payees E (with_dates O a' b') fs C Or F Re) as [K' _]. destruct (K' R') as (sel' & names' & P' & Q' & A' & I').
      exists names, names'. split; [exact Q|]. split; [exact Q'|]. split; [exact A|]. split; [exact A'|].
      intros x J. apply I'. apply I in J as [(u & Iu & Ea) J]. split; [|exact J]. exists u. split; [|exact Ea].
      exact (range_wider E _ _ W _ _ _ P P' u Iu).
Qed.

Example C115_example : let E := env1 [(lit "j", text_same)] in let O := opts0 "j" in
  sane_clock E /\ orders E /\ sorts E /\ filters_for E (o_args O) [] /\ snd (stream E O) = SOk /\ length (txns 0 (fst (stream E O))) = 2%nat /\
  flag_always E (lit "2021-03-02") (Date 2021 3 2) /\ flag_always E (lit "2021-01-01") (Date 2021 1 1) /\
  e_local E (Date 2021 1 1) <= e_local E (Date 2021 3 2) /\ e_local E (Date 2021 1 1) <> 0.
Proof.
  cbn zeta. split; [apply env1_clock|]. split; [apply env1_orders|]. split; [exact (env0_sorts [])|]. split; [split; constructor|].
  split; [vm_compute; reflexivity|]. split; [vm_compute; reflexivity|].
  split; [apply (flag_full _ (Date 2021 3 2) (lit "2021") (lit "03") (lit "02")); try (apply numeral_by; reflexivity); left; cbn; split; [auto|lia]|].
  split; [apply (flag_full _ (Date 2021 1 1) (lit "2021") (lit "01") (lit "01")); try (apply numeral_by; reflexivity); left; cbn; split; [auto|lia]|].
  split; vm_compute; discriminate.
Qed.

Example C116_example : let E := env1 [(lit "j", text_same)] in let O := opts0 "j" in
  (exists d, flag_always E (lit "2021-03-02") d) /\
  begins_no_later E (lit "2020-03-02") (lit "2021-01-01") /\ begins_no_later E [] (lit "2021-01-01") /\ ends_no_earlier E (lit "2021-03-02") (lit "2021-03-02") /\
  ends_no_earlier E [] (lit "2021-03-02") /\
  payees_cmd E (with_dates O (lit "2021-01-01") (lit "2021-03-02")) = Outcome (lines [lit "B"]) SOk /\
  payees_cmd E (with_dates O [] []) = Outcome (lines [lit "A"; lit "B"]) SOk.
Proof.
  cbn zeta.
  assert (X : flag_always (env1 [(lit "j", text_same)]) (lit "2021-03-02") (Date 2021 3 2))
    by (apply (flag_full _ (Date 2021 3 2) (lit "2021") (lit "03") (lit "02")); try (apply numeral_by; reflexivity); left; cbn; split; [auto|lia]).
  assert (Y : flag_always (env1 [(lit "j", text_same)]) (lit "2021-01-01") (Date 2021 1 1))
    by (apply (flag_full _ (Date 2021 1 1) (lit "2021") (lit "01") (lit "01")); try (apply numeral_by; reflexivity); left; cbn; split; [auto|lia]).
  assert (Z : flag_always (env1 [(lit "j", text_same)]) (lit "2020-03-02") (Date 2020 3 2))
    by (apply (flag_full _ (Date 2020 3 2) (lit "2020") (lit "03") (lit "02")); try (apply numeral_by; reflexivity); left; cbn; split; [auto|lia]).
  split; [eauto|]. split; [exists (Date 2021 1 1); split; [exact Y|right; exists (Date 2020 3 2); split; [exact Z|vm_compute; discriminate]]|].
  split; [exists (Date 2021 1 1); split; [exact Y|left; split; [reflexivity|vm_compute; discriminate]]|].
  split; [right; exists (Date 2021 3 2), (Date 2021 3 2); vm_compute e_local; repeat (split; [assumption|]); split; discriminate|].
  split; [now left|]. split; vm_compute; reflexivity.
Qed.
