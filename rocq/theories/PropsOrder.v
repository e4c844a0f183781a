(** * The order of the parts of a journal: C92 *)
From Verif Require Import Base BaseFacts Utf8 Unicode GoTime Strconv Display Journal Lexer Parser ParserFacts Account JournalFacts TreeFacts
  Reporting Budget Cmd Spec TextSpec DateFacts CalendarFacts AmountFacts CmdSpec StreamFacts CmdFacts ReportSpec TreeSpec FlatSpec FlatFacts
  Sample PropsCmd PropsBalance PropsPrint PropsStats BudgetSpec BudgetFacts PropsBudget PropsAgain PropsConcat PropsJoin PropsJoinMore.

(** The journal made of parts, an empty line after each. *)
Definition one_after_another (xs : list str) : str := concat (map (fun x => x ++ [LF]) xs).

Section Order.
Variable E : env.
Variable O : opts.
Variable p : str.
Hypothesis Path : journal_path E O = Some p.
Hypothesis Steady : steady E.
Notation at_ xs := (holding E p (one_after_another xs)).

Lemma parts_cons : forall x xs, one_after_another (x :: xs) = x ++ LF :: one_after_another xs.
Proof. intros x xs. unfold one_after_another. cbn. now rewrite <- app_assoc. Qed.
Lemma parts_stream : forall xs, Forall line_start xs ->
  (snd (stream (at_ xs) O) = SOk <-> Forall (fun x => snd (stream (holding E p x) O) = SOk) xs /\ snd (stream (holding E p []) O) = SOk) /\
  (snd (stream (at_ xs) O) = SOk -> fst (stream (at_ xs) O) = flat_map (fun x => fst (stream (holding E p x) O)) xs).
Proof.
  intros xs F. induction F as [|x xs Hx F [IH1 IH2]].
  - change (one_after_another []) with (@nil Z). split; [split; [intro H; split; [constructor|exact H]|intros [_ H]; exact H]|].
    rewrite (holding_stream E O p Path). destruct (e_depth E); intro H; first [reflexivity|discriminate H].
  - rewrite parts_cons. destruct (joined_stream E O p x (one_after_another xs) Path Hx) as [J1 J2]. rewrite J1. split.
    + rewrite IH1. split; [intros (A & B & C); split; [constructor; auto|exact C]|]. intros [H C]. inversion H; auto.
    + intros [A B]. rewrite J2 by (now apply J1). cbn [flat_map]. now rewrite IH2.
Qed.

Variables xs ys : list str.
Hypothesis Starts : Forall line_start xs.
Hypothesis Perm : Permutation xs ys.
Let E1 := at_ xs.
Let E2 := at_ ys.

Lemma order_stream : (snd (stream E1 O) = SOk <-> snd (stream E2 O) = SOk) /\
  (snd (stream E1 O) = SOk -> Permutation (fst (stream E1 O)) (fst (stream E2 O))).
Proof.
  assert (S2 : Forall line_start ys) by (eapply Permutation_Forall; eauto).
  destruct (parts_stream xs Starts) as [A1 A2], (parts_stream ys S2) as [B1 B2].
  assert (I : snd (stream E1 O) = SOk <-> snd (stream E2 O) = SOk).
  { unfold E1, E2. rewrite A1, B1. split; (intros [F Q]; split; [|exact Q]); revert F; apply Permutation_Forall; [exact Perm|now symmetry]. }
  split; [exact I|]. intro H. unfold E1, E2 in *. rewrite A2 by exact H. rewrite B2 by now apply I. now apply Permutation_flat_map.
Qed.

Lemma txns_perm : forall es es', Permutation es es' -> forall n m, Permutation (map u_txn (txns n es)) (map u_txn (txns m es')).
Proof.
  assert (T : forall es n, map u_txn (txns n es) = flat_map (fun e => match e with ETxn t _ => [t] | EPer _ _ => [] end) es).
  { induction es as [|[t q|t q] es IH]; intro n; cbn; [reflexivity| |apply IH]. f_equal. apply IH. }
  intros es es' P n m. rewrite !T. now apply Permutation_flat_map.
Qed.

Lemma picks_swap : forall fs us us', Permutation us us' -> forall sel, picks E O fs us sel ->
  exists sel', picks E O fs us' sel' /\ Permutation sel sel'.
Proof.
  intros fs us us' P. induction P as [|u us us' P IH|u v us|us us' us'' P1 IH1 P2 IH2]; intros sel H.
  - exists sel. auto.
  - inversion H as [|? ? ? No H1|? ? ? ps W Ht Pm Wh H1]; subst; destruct (IH _ H1) as (s & K & Q).
    + exists s. split; [apply PickNot; assumption|exact Q].
    + exists ((u, ps) :: s). split; [apply PickIt; assumption|]. now constructor.
  - inversion H as [|? ? ? No H1|? ? ? ps W Ht Pm Wh H1]; subst; inversion H1 as [|? ? ? No2 H2|? ? ? ps2 W2 Ht2 Pm2 Wh2 H2]; subst.
    + exists sel. split; [|reflexivity]. apply PickNot; [exact No2|]. apply PickNot; assumption.
    + eexists. split; [apply PickIt; [exact W2|exact Ht2|exact Pm2|exact Wh2|apply PickNot; [exact No|exact H2]]|reflexivity].
    + eexists. split; [apply PickNot; [exact No2|apply PickIt; [exact W|exact Ht|exact Pm|exact Wh|exact H2]]|reflexivity].
    + eexists. split; [apply PickIt; [exact W2|exact Ht2|exact Pm2|exact Wh2|apply PickIt; [exact W|exact Ht|exact Pm|exact Wh|exact H2]]|apply perm_swap].
  - destruct (IH1 _ H) as (s1 & H1 & Q1). destruct (IH2 _ H1) as (s2 & H2 & Q2). exists s2. split; [exact H2|]. etransitivity; eauto.
Qed.
Lemma range_swap : forall us us', Permutation us us' -> forall sel, in_range E O us sel ->
  exists sel', in_range E O us' sel' /\ Permutation sel sel'.
Proof.
  intros us us' P. induction P as [|u us us' P IH|u v us|us us' us'' P1 IH1 P2 IH2]; intros sel H.
  - exists sel. auto.
  - inversion H as [|? ? ? No H1|? ? ? W H1]; subst; destruct (IH _ H1) as (s & K & Q).
    + exists s. split; [apply RangeOut; assumption|exact Q].
    + exists (u :: s). split; [apply RangeIn; assumption|]. now constructor.
  - inversion H as [|? ? ? No H1|? ? ? W H1]; subst; inversion H1 as [|? ? ? No2 H2|? ? ? W2 H2]; subst.
    + exists sel. split; [|reflexivity]. apply RangeOut; [exact No2|]. apply RangeOut; assumption.
    + eexists. split; [apply RangeIn; [exact W2|apply RangeOut; [exact No|exact H2]]|reflexivity].
    + eexists. split; [apply RangeOut; [exact No2|apply RangeIn; [exact W|exact H2]]|reflexivity].
    + eexists. split; [apply RangeIn; [exact W2|apply RangeIn; [exact W|exact H2]]|apply perm_swap].
  - destruct (IH1 _ H) as (s1 & H1 & Q1). destruct (IH2 _ H1) as (s2 & H2 & Q2). exists s2. split; [exact H2|]. etransitivity; eauto.
Qed.

Lemma order_picks : forall fs s1 s2, snd (stream E1 O) = SOk ->
  picks E1 O fs (txns 0 (fst (stream E1 O))) s1 -> picks E2 O fs (txns 0 (fst (stream E2 O))) s2 ->
  Permutation (selected s1) (selected s2) /\ Permutation (taken s1) (taken s2).
Proof.
  intros fs s1 s2 Ok P1 P2. apply picks_holding in P1, P2.
  destruct (Permutation_map_inv _ _ (Permutation_sym (txns_perm _ _ (proj2 order_stream Ok) 0 0))) as (us & Q & P).
  destruct (picks_swap fs _ _ P _ P1) as (s & H & S). destruct (picks_renumber E O Steady fs _ _ H _ (eq_sym Q)) as (s' & H' & S' & T').
  rewrite <- (picks_selected _ _ _ _ _ _ H' P2), S'. split.
  - unfold selected. now apply Permutation_map.
  - rewrite <- (hits_taken _ _ _ _ _ _ H' P2), T'. unfold taken. now apply Permutation_flat_map.
Qed.
Lemma order_range : forall s1 s2, snd (stream E1 O) = SOk ->
  in_range E1 O (txns 0 (fst (stream E1 O))) s1 -> in_range E2 O (txns 0 (fst (stream E2 O))) s2 ->
  Permutation (map u_txn s1) (map u_txn s2).
Proof.
  intros s1 s2 Ok P1 P2. apply range_holding in P1, P2.
  destruct (Permutation_map_inv _ _ (Permutation_sym (txns_perm _ _ (proj2 order_stream Ok) 0 0))) as (us & Q & P).
  destruct (range_swap _ _ P _ P1) as (s & H & S). destruct (range_renumber E O Steady _ _ H _ (eq_sym Q)) as (s' & H' & S').
  rewrite (range_fun _ _ _ _ _ P2 H'), S'. now apply Permutation_map.
Qed.
Lemma order_readable : CmdSpec.readable E1 O <-> CmdSpec.readable E2 O.
Proof.
  assert (K : forall x es, Forall (fun u => good_flags (holding E p x) O (u_n u)) (txns 0 es) <-> (map u_txn (txns 0 es) = [] \/ good_flags E O 0)).
  { intros x es. rewrite Forall_forall. destruct (txns 0 es) as [|u us].
    - split; [now left|]. intros _ u [].
    - split.
      + intro H. right. apply (flags_steady E O Steady 0 (u_n u)). exact (H u (or_introl eq_refl)).
      + intros [H|H]; [discriminate|]. intros v _. exact (proj1 (flags_steady E O Steady 0 (u_n v)) H). }
  unfold CmdSpec.readable, E1, E2. rewrite !K. destruct order_stream as [I P]. fold E1 E2. split.
  - intros [Ok [H|H]]; (split; [now apply I|]); [left|now right].
    pose proof (txns_perm _ _ (P Ok) 0 0) as Q. rewrite H in Q. now apply Permutation_nil in Q.
  - intros [Ok [H|H]]; (split; [now apply I|]); [left|now right].
    pose proof (txns_perm _ _ (P (proj2 I Ok)) 0 0) as Q. rewrite H in Q. symmetry in Q. now apply Permutation_nil in Q.
Qed.

Hypothesis Clock : sane_clock E.
Hypothesis Orders : orders E.
Variable fs : list filter_.
Hypothesis Filters : filters_for E (o_args O) fs.

(** However the parts of a journal are ordered, print prints the same
    transactions ... *)
Theorem C92_print : sorts E -> (r_status (print_cmd E1 O) = SOk <-> r_status (print_cmd E2 O) = SOk) /\
  (r_status (print_cmd E1 O) = SOk -> Permutation (r_out (print_cmd E1 O)) (r_out (print_cmd E2 O))).
Proof.
  intro So.
  destruct (C42_print E1 O fs Clock Orders So (holding_filters E O p fs Filters _)) as [K1 N1].
  destruct (C42_print E2 O fs Clock Orders So (holding_filters E O p fs Filters _)) as [K2 N2].
  assert (I : r_status (print_cmd E1 O) = SOk -> CmdSpec.readable E1 O).
  { intro H. destruct (readable_dec E1 O fs Clock Orders) as [R|R]; [exact R|]. destruct (N1 R). contradiction. }
  assert (I2 : r_status (print_cmd E2 O) = SOk -> CmdSpec.readable E2 O).
  { intro H. destruct (readable_dec E2 O fs Clock Orders) as [R|R]; [exact R|]. destruct (N2 R). contradiction. }
  assert (J : forall R1 R2, print_cmd E1 O = R1 -> print_cmd E2 O = R2 -> CmdSpec.readable E1 O -> r_status R1 = SOk /\ r_status R2 = SOk /\ Permutation (r_out R1) (r_out R2)).
  { intros R1 R2 <- <- R. pose proof (proj1 order_readable R) as R'. destruct (K1 R) as (s1 & t1 & P1 & M1 & _ & ->).
    destruct (K2 R') as (s2 & t2 & P2 & M2 & _ & ->). split; [reflexivity|]. split; [reflexivity|]. cbn [r_out]. unfold lines. do 2 apply Permutation_map.
    rewrite M1, M2. exact (proj1 (order_picks fs s1 s2 (proj1 R) P1 P2)). }
  split; [split|].
  - intro H. apply (J _ _ eq_refl eq_refl). auto.
  - intro H. apply (J _ _ eq_refl eq_refl). apply order_readable. auto.
  - intro H. apply (J _ _ eq_refl eq_refl). auto.
Qed.

(** ... accounts and payees list the same names ... *)
Theorem C92_listings : Forall (fun x => e_re_ok E (case_text E x) = true) (o_args O) -> forall cmd, cmd = accounts_cmd \/ cmd = payees_cmd ->
  (r_status (cmd E1 O) = SOk <-> r_status (cmd E2 O) = SOk) /\ (r_status (cmd E1 O) = SOk -> cmd E1 O = cmd E2 O).
Proof.
  intros A cmd Hc.
  assert (J : (r_status (cmd E1 O) = SOk -> CmdSpec.readable E1 O) /\ (r_status (cmd E2 O) = SOk -> CmdSpec.readable E2 O) /\
    (CmdSpec.readable E1 O -> r_status (cmd E1 O) = SOk /\ cmd E1 O = cmd E2 O)).
  { destruct Hc as [-> | ->].
    - destruct (C40_accounts E1 O fs Clock Orders (holding_filters E O p fs Filters _)) as [K1 N1].
      destruct (C40_accounts E2 O fs Clock Orders (holding_filters E O p fs Filters _)) as [K2 N2].
      split; [|split].
      + intro H. destruct (readable_dec E1 O fs Clock Orders) as [R|R]; [exact R|]. now apply N1 in R.
      + intro H. destruct (readable_dec E2 O fs Clock Orders) as [R|R]; [exact R|]. now apply N2 in R.
      + intro R. pose proof (proj1 order_readable R) as R'. destruct (K1 R) as (s1 & n1 & P1 & -> & A1 & L1).
        destruct (K2 R') as (s2 & n2 & P2 & -> & A2 & L2). split; [reflexivity|]. do 2 f_equal. apply ascending_same; auto.
        intro z. rewrite L1, L2. pose proof (order_range s1 s2 (proj1 R) P1 P2) as Q.
        assert (U : forall sel a, uses sel a <-> exists t q, In t (map u_txn sel) /\ In q (t_postings t) /\ po_account q = a).
        { intros sel a. unfold uses. split.
          - intros (u & q & I & X). exists (u_txn u), q. split; [now apply in_map|exact X].
          - intros (t & q & I & X). apply in_map_iff in I as (u & <- & I). eauto. }
        rewrite !U. split; intros [(t & q & I & X) Y]; (split; [|exact Y]); exists t, q; (split; [|exact X]).
        * eapply Permutation_in; eauto.
        * eapply Permutation_in; [symmetry|]; eauto.
    - destruct (C41_payees E1 O fs Clock Orders (holding_filters E O p fs Filters _) A) as [K1 N1].
      destruct (C41_payees E2 O fs Clock Orders (holding_filters E O p fs Filters _) A) as [K2 N2].
      split; [|split].
      + intro H. destruct (readable_dec E1 O fs Clock Orders) as [R|R]; [exact R|]. now apply N1 in R.
      + intro H. destruct (readable_dec E2 O fs Clock Orders) as [R|R]; [exact R|]. now apply N2 in R.
      + intro R. pose proof (proj1 order_readable R) as R'. destruct (K1 R) as (s1 & n1 & P1 & -> & A1 & L1).
        destruct (K2 R') as (s2 & n2 & P2 & -> & A2 & L2). split; [reflexivity|]. do 2 f_equal. apply ascending_same; auto.
        intro z. rewrite L1, L2. pose proof (order_range s1 s2 (proj1 R) P1 P2) as Q.
        assert (U : forall sel a, pays sel a <-> exists t, In t (map u_txn sel) /\ t_payee t = a).
        { intros sel a. unfold pays. split.
          - intros (u & I & X). exists (u_txn u). split; [now apply in_map|exact X].
          - intros (t & I & X). apply in_map_iff in I as (u & <- & I). eauto. }
        rewrite !U. split; intros [(t & I & X) Y]; (split; [|exact Y]); exists t; (split; [|exact X]).
        * eapply Permutation_in; eauto.
        * eapply Permutation_in; [symmetry|]; eauto. }
  destruct J as (J1 & J2 & J3). split; [split|].
  - intro H. destruct (J3 (J1 H)) as [_ Q]. now rewrite <- Q.
  - intro H. apply J3. apply order_readable. auto.
  - intro H. apply J3. auto.
Qed.

(** ... balance shows the same, with one commodity ... *)
Theorem C92_balance : sorts E -> (r_status (balance_cmd E1 O) = SOk <-> r_status (balance_cmd E2 O) = SOk) /\
  forall c, Forall (fun u => uniform c (t_postings (u_txn u))) (txns 0 (fst (stream E1 O))) ->
  r_status (balance_cmd E1 O) = SOk -> balance_cmd E2 O = balance_cmd E1 O.
Proof.
  intro So. destruct (C61_balance E1 O fs Clock Orders (holding_filters E O p fs Filters _)) as [K _].
  destruct (C61_balance E2 O fs Clock Orders (holding_filters E O p fs Filters _)) as [K2 _]. split.
  - rewrite K, K2. split.
    + intros [R (s1 & P1 & H)]. pose proof (proj1 order_readable R) as R'. destruct (holding_picked E O p Clock Orders fs Filters So _ R') as (s2 & P2).
      split; [exact R'|]. exists s2. split; [exact P2|]. eapply Permutation_Forall; [|exact H]. exact (proj2 (order_picks fs s1 s2 (proj1 R) P1 P2)).
    + intros [R' (s2 & P2 & H)]. pose proof (proj2 order_readable R') as R. destruct (holding_picked E O p Clock Orders fs Filters So _ R) as (s1 & P1).
      split; [exact R|]. exists s1. split; [exact P1|]. eapply Permutation_Forall; [|exact H]. symmetry. exact (proj2 (order_picks fs s1 s2 (proj1 R) P1 P2)).
  - intros c Un Ok. apply K in Ok as [R (s1 & P1 & Pr)]. pose proof (proj1 order_readable R) as R'.
    destruct (holding_picked E O p Clock Orders fs Filters So _ R') as (s2 & P2). fold E2 in P2.
    apply (balance_perm c E1 O fs s1 E2 O fs s2); auto; try apply holding_filters; auto.
    + unfold uniform. apply Forall_forall. intros q I. unfold taken in I. apply in_flat_map in I as ([u ps] & I & J).
      apply (picks_in _ _ _ _ _ _ _ P1) in I as (I & _ & _ & Pm). rewrite Forall_forall in Un. specialize (Un u I). unfold uniform in Un.
      rewrite Forall_forall in Un. apply Un. eapply hits_in. eapply Permutation_in; eauto.
    + apply Permutation_map. exact (proj2 (order_picks fs s1 s2 (proj1 R) P1 P2)).
Qed.

(** ... stats tells the same ... *)
Theorem C92_stats : sorts E ->
  (r_status (stats_cmd E1 O) = SOk <-> r_status (stats_cmd E2 O) = SOk) /\
  (r_status (stats_cmd E1 O) = SOk ->
   exists n accs1 accs2 pays1 pays2 r1 r2,
     tells E (r_out (stats_cmd E1 O)) n accs1 pays1 r1 /\ tells E (r_out (stats_cmd E2 O)) n accs2 pays2 r2 /\
     Permutation accs1 accs2 /\ Permutation pays1 pays2 /\
     (Forall (fun u => t_date (u_txn u) <> Date 1 1 1) (txns 0 (fst (stream E1 O))) -> r1 = r2)).
Proof.
  intro So.
  assert (B : r_status (stats_cmd E1 O) = SOk <-> r_status (stats_cmd E2 O) = SOk).
  { rewrite (C44_completes E1 O fs Clock Orders (holding_filters E O p fs Filters _)), (C44_completes E2 O fs Clock Orders (holding_filters E O p fs Filters _)). split.
    - intros [R (s & P & H)]. pose proof (proj1 order_readable R) as R2. destruct (holding_picked E O p Clock Orders fs Filters So _ R2) as (s2 & P2).
      split; [exact R2|]. exists s2. split; [exact P2|]. eapply Permutation_Forall; [|exact H]. exact (proj2 (order_picks fs s s2 (proj1 R) P P2)).
    - intros [R2 (s2 & P2 & H)]. pose proof (proj2 order_readable R2) as R. destruct (holding_picked E O p Clock Orders fs Filters So _ R) as (s & P).
      split; [exact R|]. exists s. split; [exact P|]. eapply Permutation_Forall; [|exact H]. symmetry. exact (proj2 (order_picks fs s s2 (proj1 R) P P2)). }
  split; [exact B|]. intro H1. pose proof (proj1 B H1) as H2.
  destruct (stats_tells E1 O fs Clock Orders (holding_filters E O p fs Filters _) H1) as (R1 & s1 & accs1 & pays1 & r1 & P1 & T1 & A1 & Y1 & N1 & D1).
  destruct (stats_tells E2 O fs Clock Orders (holding_filters E O p fs Filters _) H2) as (R2 & s2 & accs2 & pays2 & r2 & P2 & T2 & A2 & Y2 & N2 & D2).
  destruct (order_picks fs s1 s2 (proj1 R1) P1 P2) as [Se Ta].
  exists (length s1), accs1, accs2, pays1, pays2, r1, r2.
  assert (L : length s2 = length s1).
  { pose proof (Permutation_length Se) as L. unfold selected in L. rewrite !map_length in L. auto. }
  assert (ND : forall out n a b r, tells E out n a b r -> NoDup a /\ NoDup b) by (intros ? ? ? ? ? []; split; auto; constructor).
  apply tells_holding in T1, T2. split; [exact T1|]. split; [rewrite <- L; exact T2|]. split; [|split].
  - apply NoDup_Permutation; [apply (ND _ _ _ _ _ T1)|apply (ND _ _ _ _ _ T2)|]. intro z. rewrite A1, A2.
    split; intros (q & I & Q); exists q; (split; [|exact Q]); [|symmetry in Ta]; eapply Permutation_in; eauto.
  - apply NoDup_Permutation; [apply (ND _ _ _ _ _ T1)|apply (ND _ _ _ _ _ T2)|]. intro z. rewrite Y1, Y2.
    split; intros (q & I & Q); exists q; (split; [|exact Q]); [|symmetry in Se]; eapply Permutation_in; eauto.
  - intro Fz.
    assert (Z1 : Forall (fun t => t_date t <> Date 1 1 1) (selected s1)).
    { clear - P1 Fz. induction P1; [constructor|inversion Fz; auto|]. inversion Fz; subst. constructor; auto. }
    assert (Z2 : Forall (fun t => t_date t <> Date 1 1 1) (selected s2)) by (eapply Permutation_Forall; eauto).
    destruct s1 as [|x1 s1'].
    { destruct s2; [|discriminate]. now rewrite N1, N2. }
    assert (X1 : x1 :: s1' <> []) by discriminate. assert (X2 : s2 <> []) by (intros ->; discriminate).
    destruct (D1 Z1 X1) as (f1 & l1 & -> & [I1 M1] & [J1 K1]). destruct (D2 Z2 X2) as (f2 & l2 & -> & [I2 M2] & [J2 K2]).
    pose proof (Permutation_map t_date Se) as Sd.
    assert (Rd : forall d, In d (map t_date (selected s2)) -> real_date d).
    { intros d I. apply in_map_iff in I as (t & <- & I). exact (selected_dated E2 O fs s2 t P2 I). }
    assert (Same : forall d d', In d (map t_date (selected s2)) -> In d' (map t_date (selected s2)) -> ~ earlier d d' -> ~ earlier d' d -> d = d').
    { intros d d' I I' A B'. apply Rd in I, I'. rewrite <- (instant_order d d' I I') in A. rewrite <- (instant_order d' d I' I) in B'.
      apply instant_inj; auto. lia. }
    assert (In1 : forall d, In d (map t_date (selected (x1 :: s1'))) <-> In d (map t_date (selected s2))).
    { intro d. split; apply Permutation_in; [exact Sd|now symmetry]. }
    assert (Q1 : f1 = f2) by (apply Same; [now apply In1|exact I2|apply M2; now apply In1|apply M1; now apply In1]).
    assert (Q2 : l1 = l2) by (apply Same; [now apply In1|exact J2|apply K1; now apply In1|apply K2; now apply In1]).
    congruence.
Qed.

Lemma history_swap : forall evs evs', Permutation evs evs' -> forall log, history E O fs 0 evs log ->
  exists log', history E O fs 0 evs' log' /\ Permutation log log'.
Proof.
  intros evs evs' P. induction P as [|e evs evs' P IH|e e' evs|evs evs' evs'' P1 IH1 P2 IH2]; intros log H.
  - exists log. auto.
  - apply (history_cut E O Steady fs [e]) in H as (l1 & l2 & -> & H1 & H2). destruct (IH _ H2) as (l2' & H2' & Q).
    exists (l1 ++ l2'). split; [exact (history_append E O Steady fs _ _ _ H1 _ _ H2')|]. now apply Permutation_app_head.
  - apply (history_cut E O Steady fs [e']) in H as (l1 & l2 & -> & H1 & H2). apply (history_cut E O Steady fs [e]) in H2 as (l3 & l4 & -> & H3 & H4).
    exists (l3 ++ (l1 ++ l4)). split; [|rewrite !app_assoc; apply Permutation_app_tail, Permutation_app_comm].
    exact (history_append E O Steady fs _ _ _ H3 _ _ (history_append E O Steady fs _ _ _ H1 _ _ H4)).
  - destruct (IH1 _ H) as (l1 & H1 & Q1). destruct (IH2 _ H1) as (l2 & H2 & Q2). exists l2. split; [exact H2|]. etransitivity; eauto.
Qed.

(** ... and the budget has the same moves. *)
Theorem C92_budget :
  (r_status (budget_cmd E1 O) = SOk <-> r_status (budget_cmd E2 O) = SOk) /\
  (r_status (budget_cmd E1 O) = SOk ->
   exists log1 log2, budget_tells E1 O fs log1 /\ budget_tells E2 O fs log2 /\ Permutation log1 log2 /\
     forall y m, earned (month y m log1) = earned (month y m log2) /\
       forall q, assigned q (month y m log1) = assigned q (month y m log2) /\ spent q (month y m log1) = spent q (month y m log2)).
Proof.
  pose proof (fun x => C48_report (holding E p x) O fs Clock Orders (holding_filters E O p fs Filters x)) as K.
  destruct order_stream as [_ Ps].
  assert (B : r_status (budget_cmd E1 O) = SOk <-> r_status (budget_cmd E2 O) = SOk).
  { unfold E1, E2. rewrite !(fun x => proj1 (K x)). split.
    - intros [R (log & H & P)]. split; [now apply order_readable|]. apply history_holding in H.
      destruct (history_swap _ _ (Ps (proj1 R)) _ H) as (log' & H' & Q). exists log'. split; [now apply history_holding|]. eapply Permutation_Forall; eauto.
    - intros [R (log & H & P)]. apply order_readable in R. split; [exact R|]. apply history_holding in H.
      destruct (history_swap _ _ (Permutation_sym (Ps (proj1 R))) _ H) as (log' & H' & Q). exists log'. split; [now apply history_holding|].
      eapply Permutation_Forall; eauto. }
  split; [exact B|]. intro H1. pose proof (proj1 B H1) as H2. pose proof (proj1 (proj1 (proj1 (K _)) H1)) as R.
  destruct (proj2 (K _) H1) as (l1 & ms1 & bs1 & Hi1 & T1). destruct (proj2 (K _) H2) as (l2 & ms2 & bs2 & Hi2 & T2). exists l1, l2.
  split; [exists ms1, bs1; auto|]. split; [exists ms2, bs2; auto|].
  assert (P : Permutation l1 l2).
  { apply history_holding in Hi1, Hi2. destruct (history_swap _ _ (Ps (proj1 R)) _ Hi1) as (l & H' & Q). rewrite Q. exact (history_same _ _ _ _ _ _ H' _ Hi2). }
  split; [exact P|]. intros y m. split; [now apply sum_of_perm, month_perm|]. intro q. split; now apply sum_of_perm, month_perm.
Qed.
End Order.

Definition parts1 : list str := [spend_text; assign_text; text_same].
Definition parts2 : list str := [text_same; spend_text; assign_text].
Example C92_example : let E := env1 [] in let O := opts_zero [] [] in let at_ xs := holding E (lit "j") (one_after_another xs) in
  journal_path E O = Some (lit "j") /\ Forall line_start parts1 /\ Permutation parts1 parts2 /\ steady E /\ sane_clock E /\ orders E /\ sorts E /\
  filters_for E (o_args O) [] /\ Forall (fun u => uniform (lit "$") (t_postings (u_txn u))) (txns 0 (fst (stream (at_ parts1) O))) /\
  map (fun u => t_date (u_txn u)) (txns 0 (fst (stream (at_ parts1) O))) = [Date 2021 3 5; Date 2021 4 5; Date 2021 3 2; Date 2021 3 1] /\
  map (fun u => t_date (u_txn u)) (txns 0 (fst (stream (at_ parts2) O))) = [Date 2021 3 2; Date 2021 3 1; Date 2021 3 5; Date 2021 4 5] /\
  (let E1 := at_ parts1 in Forall (fun r => r_status r = SOk) [print_cmd E1 O; accounts_cmd E1 O; payees_cmd E1 O; balance_cmd E1 O; stats_cmd E1 O; budget_cmd E1 O]) /\
  r_out (balance_cmd (at_ parts2) O) = (lit "               $3.00  Expenses" ++ [10] ++ lit "               $3.00    Food" ++ [10] ++
    lit "              $-3.00  w" ++ [10] ++ lit "               $4.50  x" ++ [10] ++ lit "               $1.00    y" ++ [10] ++
    lit "              $-4.50  z" ++ [10]) :: ending.
Proof.
  cbn zeta. split; [reflexivity|]. split.
  { unfold parts1, spend_text, assign_text, text_same. repeat (apply Forall_cons; [right; rewrite !app_assoc; eexists; reflexivity|]). apply Forall_nil. }
  split; [unfold parts1, parts2; etransitivity; [apply perm_skip, perm_swap|apply perm_swap]|].
  split; [intro n; split; reflexivity|]. split; [apply env1_clock|]. split; [apply env1_orders|]. split; [exact (env0_sorts [])|].
  split; [apply makeFilters_spec; reflexivity|]. split.
  { match goal with |- Forall _ ?l => assert (X : forallb (fun u => goodb (lit "$") (u_txn u)) l = true) by (vm_compute; reflexivity); revert X; generalize l end.
    intros l X. rewrite forallb_forall in X. apply Forall_forall. intros u I. apply goodb_iff. exact (X u I). }
  split; [vm_compute; reflexivity|]. split; [vm_compute; reflexivity|].
  split; [|vm_compute; reflexivity]. repeat (apply Forall_cons; [vm_compute; reflexivity|]). apply Forall_nil.
Qed.
