(** * C129: arguments that pick whole transactions strike out the others *)
From Verif Require Import Base BaseFacts Utf8 Unicode GoTime Strconv Display Journal JournalFacts Lexer Parser ParserFacts Account TreeFacts
  Reporting Budget Cmd Spec TextSpec DateFacts CalendarFacts AmountFacts CmdSpec StreamFacts CmdFacts ReportSpec TreeSpec FlatSpec FlatFacts
  Sample PropsText PropsParser PropsCmd PropsBalance PropsPrint PropsStats BudgetSpec BudgetFacts PropsBudget PropsReread PropsAgain PropsConcat PropsJoin PropsJoinMore
  BalanceFacts BankFacts PropsOrder PropsRanges PropsStatistics PropsMonths PropsDays ProgramFacts.

(** What is left of a journal when the transactions that the filters do not pick
    are struck out, the others being picked as a whole: by payee or by note.
    Budget entries stay. *)
Inductive cut (E : env) (fs : list filter_) : list event -> list event -> Prop :=
| CutEnd : cut E fs [] []
| CutBudget : forall pt p es es', cut E fs es es' -> cut E fs (EPer pt p :: es) (EPer pt p :: es')
| CutIn : forall t p es es', whole_hit E fs t = true -> cut E fs es es' -> cut E fs (ETxn t p :: es) (ETxn t p :: es')
| CutOut : forall t p es es', hit E fs t = false -> cut E fs es es' -> cut E fs (ETxn t p :: es) es'.

(** Two runs over the same postings in the same order. *)
Lemma balance_equal_by : forall E O fs sel E' O' fs' sel', sane_clock E -> orders E -> filters_for E (o_args O) fs ->
  sane_clock E' -> orders E' -> filters_for E' (o_args O') fs' ->
  CmdSpec.readable E O -> picks E O fs (txns 0 (fst (stream E O))) sel -> CmdSpec.readable E' O' -> picks E' O' fs' (txns 0 (fst (stream E' O'))) sel' ->
  (forall s, picks E O fs (txns 0 (fst (stream E O))) s -> taken s = taken sel) -> (forall s, picks E' O' fs' (txns 0 (fst (stream E' O'))) s -> taken s = taken sel') ->
  Forall priced (taken sel) -> taken sel' = taken sel ->
  o_flatten O' = o_flatten O -> o_collapse O' = o_collapse O -> o_show_zero O' = o_show_zero O ->
  balance_cmd E' O' = balance_cmd E O.
Proof.
  intros E O fs sel E' O' fs' sel' C Or F C' Or' F' Re P Re' P' One One' Pr T Ofl Oc Oz.
  rewrite (balance_cmd_run _ _ _ F), (balance_cmd_run _ _ _ F').
  pose proof (balance_run_spec E O fs C Or) as K. pose proof (balance_run_spec E' O' fs' C' Or') as K'.
  assert (Pr' : Forall priced (taken sel')) by now rewrite T.
  destruct (balance_run E O fs) as [s r]. destruct (balance_run E' O' fs') as [s' r'].
  destruct r; [|exfalso; apply K; split; [exact Re|]; exists sel; auto..].
  destruct r'; [|exfalso; apply K'; split; [exact Re'|]; exists sel'; auto..].
  destruct K as (_ & sel1 & P1 & F1 & B & Q). destruct K' as (_ & sel1' & P1' & F1' & B' & Q').
  rewrite (One _ P1) in *. rewrite (One' _ P1'), T in *. unfold finish. rewrite Q, Q'.
  assert (Rep : forall a, report O' a = report O a) by (intro a; unfold report; now rewrite Ofl, Oc). rewrite Rep.
  destruct (prepared E O _ _ Or B) as [D H]. destruct (prepared E' O' _ _ Or' B') as [D' H']. rewrite Oz in H'.
  apply (f_equal (fun l => Outcome (complaints [] (taken sel) ++ l) SOk)).
  apply report_same; auto. intros q x. split; intros (d & N & E1); exists d; (split; [|exact E1]).
  - apply H' in N. now apply H.
  - apply H in N. now apply H'.
Qed.

Section Wholly.
Variable E : env.
Variable O : opts.
Variable files : str -> option file.
Variable depth : nat.
Let E' := with_files E files depth.
Let O' := with_args O [].
Variable fs : list filter_.
Hypothesis Clock : sane_clock E.
Hypothesis Orders : orders E.
Hypothesis Sorts : sorts E.
Hypothesis Steady : steady E.
Hypothesis Filters : filters_for E (o_args O) fs.
Hypothesis Flags : good_flags E O 0.
Hypothesis Ok : snd (stream E O) = SOk.
Hypothesis Ok' : snd (stream E' O') = SOk.
Hypothesis Cut : cut E fs (fst (stream E O)) (fst (stream E' O')).

Lemma cut_clock : sane_clock E'. Proof. exact Clock. Qed.
Lemma cut_orders : orders E'. Proof. exact Orders. Qed.
Lemma cut_filters : filters_for E' (o_args O') [].
Proof. split; constructor. Qed.
Lemma cut_readable : CmdSpec.readable E O.
Proof. split; [exact Ok|]. apply Forall_forall. intros u _. now apply (flags_steady E O Steady 0). Qed.
Lemma cut_readable' : CmdSpec.readable E' O'.
Proof. split; [exact Ok'|]. apply Forall_forall. intros u _. exact (proj1 (flags_steady E O Steady 0 (u_n u)) Flags). Qed.
Lemma cut_within : forall n m d, within E O n d <-> within E' O' m d.
Proof. intros n m d. exact (within_steady E O Steady n m d). Qed.
Lemma cut_hit : forall t, whole_hit E fs t = true -> hit E fs t = true.
Proof. intros t H. unfold hit. rewrite H. now destruct fs. Qed.

Lemma cut_picks : forall es es', cut E fs es es' -> forall n m sel, picks E O fs (txns n es) sel ->
  exists sel', picks E' O' [] (txns m es') sel' /\ Forall2 same_pick sel sel' /\ taken sel = flat_map t_postings (selected sel).
Proof.
  intros es es' S. induction S as [|pt p es es' S IH|t p es es' W S IH|t p es es' No S IH]; intros n m sel P; cbn [txns] in *.
  - inversion P. exists []. repeat split; constructor.
  - eapply IH; eauto.
  - inversion P as [|? ? ? N P1|? ? ? ps W' Ht Pm Wh P1]; subst; destruct (IH _ (Datatypes.S m) _ P1) as (sel' & P' & F & T).
    + exists sel'. split; [|split; [exact F|exact T]]. apply PickNot; [|exact P']. destruct N as [N|N]; [left; intro X; apply N; now apply (cut_within n m)|].
      cbn [u_txn] in N. rewrite (cut_hit _ W) in N. discriminate.
    + cbn [u_txn u_n] in *. rewrite (Wh (or_intror W)) in *. eexists ((_, t_postings t) :: sel').
      split; [apply PickIt; [now apply (cut_within n m)|reflexivity|reflexivity|reflexivity|exact P']|]. split; [constructor; [repeat split|exact F]|].
      unfold taken, selected in *. cbn. now rewrite T.
  - inversion P as [|? ? ? N P1|? ? ? ps W' Ht Pm Wh P1]; subst; [eapply IH; eauto|]. cbn [u_txn] in Ht. congruence.
Qed.
Lemma cut_history : forall es es', cut E fs es es' -> forall n m log, history E O fs n es log -> history E' O' [] m es' log.
Proof.
  intros es es' S. induction S as [|pt p es es' S IH|t p es es' W S IH|t p es es' No S IH]; intros n m log H; inversion H as [|? ? ? ? l H1|? ? ? ? l N H1|? ? ? ps ? l W' Ht Pm Wh H1]; subst.
  - constructor.
  - constructor. eauto.
  - apply HistNot; [|eauto]. destruct N as [N|N]; [left; intro X; apply N; now apply (cut_within n m)|]. rewrite (cut_hit _ W) in N. discriminate.
  - rewrite (Wh (or_intror W)). apply HistTxn; [now apply (cut_within n m)|reflexivity|reflexivity|reflexivity|eauto].
  - eauto.
  - congruence.
Qed.

Lemma cut_selected : exists sel sel', picks E O fs (txns 0 (fst (stream E O))) sel /\ picks E' O' [] (txns 0 (fst (stream E' O'))) sel' /\
  selected sel' = selected sel /\ taken sel' = taken sel /\ (forall a, used_files sel' a <-> used_files sel a) /\ taken sel = flat_map t_postings (selected sel).
Proof.
  destruct (proj1 (C42_print E O fs Clock Orders Sorts Filters) cut_readable) as (sel & _ & P & _).
  destruct (cut_picks _ _ Cut 0 0 _ P) as (sel' & P' & F & T). exists sel, sel'. split; [exact P|]. split; [exact P'|].
  destruct (same_picks _ _ F) as (A & B & D). auto.
Qed.

(** print prints the same text, ... *)
Theorem C129_print : print_cmd E' O' = print_cmd E O.
Proof.
  destruct cut_selected as (sel & sel' & P & P' & Se & _).
  pose proof (print_run_spec E O fs Clock Orders) as K. pose proof (print_run_spec E' O' [] cut_clock cut_orders) as K'.
  pose proof (proj2 (makeFilters_spec E (o_args O) fs) Filters) as F. unfold print_cmd, with_filters.
  change (makeFilters E' (o_args O')) with (POk (@nil filter_)). rewrite F. unfold finish.
  destruct (print_run E O fs) as [s r]. destruct r; [|exfalso; apply (proj1 K), cut_readable..].
  destruct (print_run E' O' []) as [s' r']. destruct r'; [|exfalso; apply (proj1 K'), cut_readable'..].
  destruct K as (_ & Q & t & T & D), K' as (_ & Q' & t' & T' & D'). rewrite Q, Q', D, D', (picks_selected _ _ _ _ _ _ T P), (picks_selected _ _ _ _ _ _ T' P'), Se. reflexivity.
Qed.

(** ... balance prints the same report, ... *)
Theorem C129_balance : (r_status (balance_cmd E O) = SOk <-> r_status (balance_cmd E' O') = SOk) /\
  (r_status (balance_cmd E O) = SOk -> balance_cmd E' O' = balance_cmd E O).
Proof.
  destruct cut_selected as (sel & sel' & P & P' & Se & Ta & _).
  destruct (C61_balance E O fs Clock Orders Filters) as [K _]. destruct (C61_balance E' O' [] cut_clock cut_orders cut_filters) as [K' _].
  assert (Pr : r_status (balance_cmd E O) = SOk <-> Forall priced (taken sel)).
  { rewrite K. split; [intros [_ (s & Ps & H)]; eapply Permutation_Forall; [exact (hits_taken _ _ _ _ _ _ Ps P)|exact H]|]. intro H. split; [exact cut_readable|]. exists sel. auto. }
  assert (Pr' : r_status (balance_cmd E' O') = SOk <-> Forall priced (taken sel')).
  { rewrite K'. split; [intros [_ (s & Ps & H)]; eapply Permutation_Forall; [exact (hits_taken _ _ _ _ _ _ Ps P')|exact H]|]. intro H. split; [exact cut_readable'|]. exists sel'. auto. }
  split; [now rewrite Pr, Pr', Ta|]. intro H.
  apply (balance_equal_by E O fs sel E' O' [] sel'); auto using cut_readable, cut_readable', cut_clock, cut_orders, cut_filters; [| |now apply Pr].
  - intros s Q. destruct (cut_picks _ _ Cut 0 0 _ P) as (_ & _ & _ & T). destruct (cut_picks _ _ Cut 0 0 _ Q) as (_ & _ & _ & T').
    now rewrite T, T', (picks_selected _ _ _ _ _ _ P Q).
  - intros s Q. now rewrite (taken_whole _ _ _ _ Q), (taken_whole _ _ _ _ P'), (picks_selected _ _ _ _ _ _ P' Q).
Qed.
Lemma cut_posted : forall sel, picks E O fs (txns 0 (fst (stream E O))) sel -> forall root d,
  Permutation (posted_on root sel d) (flat_map (fun t => if date_eqb (t_date t) d then posted root (t_postings t) else []) (selected sel)).
Proof.
  intro sel. generalize 0%nat. pose proof Cut as Cu. revert Cu. generalize (fst (stream E O)), (fst (stream E' O')). intros es es' S. revert sel.
  induction S as [|pt p es es' S IH|t p es es' W S IH|t p es es' No S IH]; intros sel n P root d; cbn [txns] in P.
  - inversion P. constructor.
  - eapply IH; eauto.
  - inversion P as [|? ? ? N P1|? ? ? ps W' Ht Pm Wh P1]; subst; [eapply IH; eauto|]. cbn [u_txn] in Wh. rewrite (Wh (or_intror W)) in *.
    unfold posted_on, selected in *. cbn [map flat_map fst snd u_txn]. apply Permutation_app_head. eapply IH; eauto.
  - inversion P as [|? ? ? N P1|? ? ? ps W' Ht Pm Wh P1]; subst; [eapply IH; eauto|]. cbn [u_txn] in Ht. congruence.
Qed.
(** ... stats the same report but for the order of the files, ... *)
Theorem C129_stats : (r_status (stats_cmd E O) = SOk <-> r_status (stats_cmd E' O') = SOk) /\
  (r_status (stats_cmd E O) = SOk -> Forall (fun u => t_date (u_txn u) <> Date 1 1 1) (txns 0 (fst (stream E O))) ->
   exists head names names' tail, Permutation names names' /\
     r_out (stats_cmd E O) = head ++ names ++ tail /\ r_out (stats_cmd E' O') = head ++ names' ++ tail).
Proof.
  destruct cut_selected as (sel & sel' & P & P' & Se & Ta & Uf & Wt).
  assert (B : r_status (stats_cmd E O) = SOk <-> r_status (stats_cmd E' O') = SOk).
  { rewrite (C44_completes E O fs Clock Orders Filters), (C44_completes E' O' [] cut_clock cut_orders cut_filters). split; intros [_ (s & Ps & H)].
    - split; [exact cut_readable'|]. exists sel'. split; [exact P'|]. rewrite Ta. eapply Permutation_Forall; [exact (hits_taken _ _ _ _ _ _ Ps P)|exact H].
    - split; [exact cut_readable|]. exists sel. split; [exact P|]. rewrite <- Ta. eapply Permutation_Forall; [exact (hits_taken _ _ _ _ _ _ Ps P')|exact H]. }
  split; [exact B|]. intros H Nz. pose proof (proj1 B H) as H'.
  assert (N1 : Forall (fun t => t_date t <> Date 1 1 1) (selected sel)).
  { clear - P Nz. induction P; [constructor|inversion Nz; auto|]. inversion Nz; subst. constructor; auto. }
  destruct (C122_figures E O fs sel E' O' [] sel' Clock Orders Filters cut_clock cut_orders cut_filters (fun n => eq_refl) H H' P P') as (f1 & f2 & rep & X1 & X2 & Q1 & Q2).
  { rewrite Se. apply Forall_app. split; exact N1. }
  { destruct (picked_by _ _ _ _ _ P) as [T G], (picked_by _ _ _ _ _ P') as [T' G'].
    apply (figures_of sel sel' t_postings (hits E' []) (selected sel) (selected sel)); auto; [now rewrite Wt|exact (cut_posted sel P)|now rewrite Se|]. clear. induction (selected sel); constructor; auto. }
  rewrite Q1, Q2. pose proof (f_equal (@length _) Se) as Le. unfold selected in Le. rewrite !map_length in Le.
  destruct X1 as [[-> ->]|[Ne (l1 & n1 & L1 & K1 & ->)]], X2 as [[-> ->]|[Ne2 (l2 & n2 & L2 & K2 & ->)]].
  - exists [], [], [], rep. auto.
  - exfalso. apply Ne2. destruct sel'; [reflexivity|discriminate].
  - exfalso. apply Ne. destruct sel; [reflexivity|discriminate].
  - assert (Pf : Permutation l1 l2).
    { apply NoDup_Permutation; [apply L1|apply L2|]. intro a. now rewrite (proj2 L1 a), (proj2 L2 a), Uf. }
    rewrite (Permutation_length Pf) in K1. rewrite (MistakeFacts.canonical_unique _ _ _ (Nat2Z.is_nonneg _) K1 K2).
    exists [lit "Transactions found in " ++ n2 ++ lit " files:" ++ [10]], (map (fun p => lit "  " ++ p ++ [10]) l1), (map (fun p => lit "  " ++ p ++ [10]) l2), rep.
    split; [now apply Permutation_map|]. rewrite <- !app_assoc. split; reflexivity.
Qed.

(** ... and budget the same budget. *)
Theorem C129_budget : (r_status (budget_cmd E O) = SOk <-> r_status (budget_cmd E' O') = SOk) /\
  (r_status (budget_cmd E O) = SOk -> budget_cmd E' O' = budget_cmd E O).
Proof.
  destruct (history_exists E O fs Clock Orders Sorts Filters cut_readable) as (log & H). pose proof (cut_history _ _ Cut 0 0 _ H) as H'.
  pose proof (C48_report E O fs Clock Orders Filters) as [K L]. pose proof (C48_report E' O' [] cut_clock cut_orders cut_filters) as [K' L'].
  assert (B : r_status (budget_cmd E O) = SOk <-> r_status (budget_cmd E' O') = SOk).
  { rewrite K, K'. split; intros [_ (x & X & Q)].
    - split; [exact cut_readable'|]. exists log. split; [exact H'|]. eapply Permutation_Forall; [exact (history_same _ _ _ _ _ _ X _ H)|exact Q].
    - split; [exact cut_readable|]. exists log. split; [exact H|]. eapply Permutation_Forall; [exact (history_same _ _ _ _ _ _ X _ H')|exact Q]. }
  split; [exact B|]. intro R. pose proof (proj1 B R) as R'.
  destruct (L R) as (l1 & ms1 & bs1 & Hi1 & M1 & T1 & Q1). destruct (L' R') as (l2 & ms2 & bs2 & Hi2 & M2 & T2 & Q2).
  pose proof (history_whole _ _ _ _ _ (cut_history _ _ Cut 0 0 _ Hi1) _ Hi2). subst l2.
  assert (Q : r_out (budget_cmd E' O') = r_out (budget_cmd E O)) by (rewrite Q1, Q2; f_equal; f_equal; exact (same_blocks l1 ms1 bs1 ms2 bs2 M1 M2 T1 T2)).
  destruct (budget_cmd E O), (budget_cmd E' O'). cbn in *. congruence.
Qed.
End Wholly.

(** A journal of marked parts.  Those without a mark have only transactions that
    the arguments do not pick, and are left out; the transactions of the others
    are picked by payee or note. *)
Definition cut_part (E : env) (O : opts) (fs : list filter_) (p : str) (x : bool * str) : Prop :=
  Forall (fun e => match e with
                   | ETxn t _ => if fst x then whole_hit E fs t = true else hit E fs t = false
                   | EPer _ _ => fst x = true
                   end) (fst (stream (holding E p (snd x)) O)).
Lemma cut_app : forall E fs a a' b b', cut E fs a a' -> cut E fs b b' -> cut E fs (a ++ b) (a' ++ b').
Proof. intros E fs a a' b b' S S'. induction S; cbn; [exact S'|constructor; auto..]. Qed.
Theorem C129_parts : forall E O fs p xs, journal_path E O = Some p -> sane_clock E -> orders E -> sorts E -> steady E -> filters_for E (o_args O) fs -> good_flags E O 0 ->
  Forall (fun x => line_start (snd x)) xs -> Forall (cut_part E O fs p) xs ->
  let E1 := holding E p (all_parts xs) in let E2 := holding E p (kept_parts xs) in let O' := with_args O [] in
  snd (stream E1 O) = SOk ->
  print_cmd E2 O' = print_cmd E1 O /\
  (r_status (balance_cmd E1 O) = SOk -> balance_cmd E2 O' = balance_cmd E1 O) /\ (r_status (budget_cmd E1 O) = SOk -> budget_cmd E2 O' = budget_cmd E1 O).
Proof.
  intros E O fs p xs J C Or So St Fi G Ls Dp E1 E2 O' Ok.
  assert (L1 : Forall line_start (map snd xs)) by (apply Forall_map; exact Ls).
  assert (L2 : Forall line_start (map snd (filter fst xs))).
  { apply Forall_map. rewrite Forall_forall in *. intros x I. apply filter_In in I as [I _]. auto. }
  destruct (parts_stream E O p J _ L1) as [A1 A2]. destruct (parts_stream E O p J _ L2) as [B1 B2].
  change (holding E p (one_after_another (map snd xs))) with E1 in A1, A2. change (holding E p (one_after_another (map snd (filter fst xs)))) with E2 in B1, B2.
  change (stream E2 O) with (stream E2 O') in B1, B2.
  assert (Ok' : snd (stream E2 O') = SOk).
  { apply B1. apply A1 in Ok as [F Z]. split; [|exact Z]. apply Forall_map. apply Forall_map in F. rewrite Forall_forall in *. intros x I. apply filter_In in I as [I _]. auto. }
  assert (S : cut E1 fs (fst (stream E1 O)) (fst (stream E2 O'))).
  { rewrite A2, B2 by assumption. clear - Dp.
    assert (X : cut E fs (flat_map (fun x => fst (stream (holding E p x) O)) (map snd xs)) (flat_map (fun x => fst (stream (holding E p x) O)) (map snd (filter fst xs)))).
    { induction Dp as [|[b x] xs D Dp IH]; [constructor|]. unfold cut_part in D. cbn [fst snd] in D. cbn [map filter fst snd flat_map].
      destruct b; cbn [map flat_map snd].
      - apply cut_app; [|exact IH]. induction D as [|[t q|pt q] es H D ID]; constructor; auto.
      - rewrite <- (app_nil_l (flat_map _ (map snd (filter fst xs)))). apply cut_app; [|exact IH].
        induction D as [|[t q|pt q] es H D ID]; [constructor|constructor; auto|discriminate]. }
    clear - X. subst E1. induction X; constructor; auto. }
  assert (F : filters_for E1 (o_args O) fs) by (apply holding_filters; exact Fi).
  pose (files := fun q => if str_eqb q p then Some (File (kept_parts xs) false) else e_fs E q).
  change E2 with (with_files E1 files (e_depth E)) in *.
  split; [exact (C129_print E1 O files (e_depth E) fs C Or So St F G Ok Ok' S)|].
  split; intro H; [apply (C129_balance E1 O files (e_depth E) fs C Or So St F G Ok Ok' S); auto|].
  apply (C129_budget E1 O files (e_depth E) fs C Or So St F G Ok Ok' S); auto.
Qed.

(** [cut_part] can be computed. *)
Definition cut_partb (E : env) (O : opts) (fs : list filter_) (p : str) (x : bool * str) : bool :=
  forallb (fun e => match e with
                    | ETxn t _ => if fst x then whole_hit E fs t else negb (hit E fs t)
                    | EPer _ _ => fst x
                    end) (fst (stream (holding E p (snd x)) O)).
Lemma cut_partb_ok : forall E O fs p x, cut_partb E O fs p x = true -> cut_part E O fs p x.
Proof.
  intros E O fs p [b x] H. unfold cut_partb in H. unfold cut_part. rewrite forallb_forall in H. apply Forall_forall. intros [t q|pt q] I; specialize (H _ I); cbn [fst] in *; [|exact H].
  destruct b; [exact H|]. now apply negb_true_iff in H.
Qed.
Example C129_example : let E := env1 [] in let O := with_args (opts0 "j") [lit "@C"; lit "@D"] in let p := lit "j" in
  let E1 := holding E p (all_parts day_parts) in let E2 := holding E p (kept_parts day_parts) in
  exists fs, journal_path E O = Some p /\ sane_clock E /\ orders E /\ sorts E /\ steady E /\ filters_for E (o_args O) fs /\ length fs = 2%nat /\ good_flags E O 0 /\
  Forall (fun x => line_start (snd x)) day_parts /\ Forall (cut_part E O fs p) day_parts /\ snd (stream E1 O) = SOk /\
  length (txns 0 (fst (stream E1 O))) = 4%nat /\ length (txns 0 (fst (stream E2 (with_args O [])))) = 2%nat /\
  length (r_out (print_cmd E1 O)) = 2%nat /\ r_status (balance_cmd E1 O) = SOk /\ r_status (budget_cmd E1 O) = SOk /\ r_status (stats_cmd E1 O) = SOk /\
  balance_cmd E1 (with_args O []) <> balance_cmd E1 O.
Proof.
  cbv zeta. exists [Filter (lit "C") PayeeFilter; Filter (lit "D") PayeeFilter].
  split; [reflexivity|]. split; [apply env1_clock|]. split; [apply env1_orders|]. split; [exact (env0_sorts [])|]. split; [intro n; split; reflexivity|].
  split; [apply makeFilters_spec; vm_compute; reflexivity|]. split; [reflexivity|]. split; [split; now left|].
  split; [repeat (apply Forall_cons; [right; unfold spend_text, old_text, assign_text, later_text; cbn [snd]; rewrite !app_assoc; eexists; reflexivity|]); apply Forall_nil|].
  split; [repeat (apply Forall_cons; [apply cut_partb_ok; vm_compute; reflexivity|]); apply Forall_nil|].
  do 7 (split; [vm_compute; reflexivity|]). vm_compute. discriminate.
Qed.
