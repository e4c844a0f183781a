(** * The order in which print prints: C101, and C42 with Go's own sort *)
From Coq Require Import Permutation Sorted.
From Verif Require Import Base BaseFacts Utf8 Unicode GoTime CalendarFacts Strconv Journal Lexer Parser ParserFacts Account Reporting Cmd GoSort SortFacts Spec
  TextSpec JournalText TreeFacts StreamFacts CmdSpec CmdFacts PrintFacts Sample PropsCmd PropsText PropsStats PropsPrint PropsAgain.

(** cmd/print.go:54-58 with package sort as of Go 1.15 *)
Definition sort_by_date : list transaction -> list transaction :=
  slice (fun a b => date_before (t_date a) (t_date b)).

Definition go_sort (E : env) : Prop := forall ts, e_sort E ts = sort_by_date ts.

Lemma go_sorts : forall E, go_sort E -> sorts E.
Proof.
  intros E G ts. rewrite G. destruct (slice_sorts (fun t => instant (t_date t)) ts) as [P S]. split; [exact P|].
  change (sort_by_date ts) with (slice (fun x y => instant (t_date x) <? instant (t_date y)) ts).
  clear P. induction S as [|x l S IH F]; [constructor|]. constructor; [exact IH|]. eapply Forall_impl; [|exact F]. cbv beta. intros. lia.
Qed.

(** ** What stays in place *)
Section Stable.
Context {A : Type}.
Variable key : A -> Z.
Let lt (x y : A) : bool := key x <? key y.
Definition of_key (d : Z) (l : list A) : list A := filter (fun x => key x =? d) l.

Lemma swap_neighbours : forall (l : list A) j, less lt l (S j) j = true -> forall d, of_key d (swap l (S j) j) = of_key d l.
Proof.
  induction l as [|x l IH]; intros j H d; [destruct j; discriminate|]. destruct j as [|j].
  - destruct l as [|y l]; [discriminate|]. unfold less in H. cbn [nth_error] in H. apply Z.ltb_lt in H.
    unfold swap, of_key. cbn [nth_error set_nth filter]. destruct (Z.eqb_spec (key y) d), (Z.eqb_spec (key x) d); try reflexivity. lia.
  - specialize (IH j H d). unfold swap in *. change (nth_error (x :: l) (S (S j))) with (nth_error l (S j)).
    change (nth_error (x :: l) (S j)) with (nth_error l j).
    destruct (nth_error l (S j)) as [u|]; [|reflexivity]. destruct (nth_error l j) as [v|]; [|reflexivity].
    unfold of_key in *. cbn [set_nth filter] in *. rewrite IH. reflexivity.
Qed.
Lemma insert_down_stable : forall n l a j d, of_key d (insert_down lt n l a j) = of_key d l.
Proof.
  induction n as [|n IH]; intros l a j d; cbn [insert_down]; [reflexivity|].
  destruct (Nat.ltb_spec a j) as [L|]; cbn [andb]; [|reflexivity]. destruct (less lt l j (j - 1)) eqn:Q; [|reflexivity].
  rewrite IH. replace j with (S (j - 1)) at 1 by lia. apply swap_neighbours. replace (S (j - 1)) with j by lia. exact Q.
Qed.
Lemma insertions_stable : forall n l a i d, of_key d (insertions lt n l a i) = of_key d l.
Proof. induction n as [|n IH]; intros l a i d; cbn [insertions]; [reflexivity|]. rewrite IH. apply insert_down_stable. Qed.
Lemma slice_stable : forall l, (length l <= 6)%nat -> forall d, of_key d (slice lt l) = of_key d l.
Proof.
  intros l L d. assert (Q : slice lt l = short_sort lt l 0 (length l)).
  { unfold slice. destruct (maxDepth (length l)); cbn [quickSort]; destruct (Nat.ltb_spec 12 (length l - 0)); try lia; reflexivity. }
  rewrite Q. unfold short_sort. destruct (1 <? length l - 0)%nat; [|reflexivity].
  replace (length l - (0 + 6))%nat with O by lia. cbn [shell]. unfold insertionSort. apply insertions_stable.
Qed.

Lemma ordered_less : forall l i j, StronglySorted (fun x y => key x <= key y) l -> (i <= j)%nat -> less lt l j i = false.
Proof.
  intros l i j S. revert i j. unfold less. induction S as [|x l S IH F]; intros i j L; [destruct j; reflexivity|].
  destruct j as [|j].
  - assert (i = O) as -> by lia. cbn [nth_error]. apply Z.ltb_irrefl.
  - destruct i as [|i]; cbn [nth_error]; [|apply IH; lia].
    destruct (nth_error l j) as [y|] eqn:Y; [|reflexivity]. apply nth_error_In in Y. rewrite Forall_forall in F. apply Z.ltb_ge. apply F. exact Y.
Qed.
Lemma slice_ordered : forall l, (length l <= 12)%nat -> StronglySorted (fun x y => key x <= key y) l -> slice lt l = l.
Proof.
  intros l L S. assert (Q : slice lt l = short_sort lt l 0 (length l)).
  { unfold slice. destruct (maxDepth (length l)); cbn [quickSort]; destruct (Nat.ltb_spec 12 (length l - 0)); try lia; reflexivity. }
  rewrite Q. unfold short_sort. destruct (1 <? length l - 0)%nat; [|reflexivity].
  assert (K : forall n i, shell lt n l i = l).
  { induction n as [|n IH]; intros i; cbn [shell]; [reflexivity|]. rewrite ordered_less by (exact S || lia). cbn [swap_if]. apply IH. }
  rewrite K. unfold insertionSort.
  assert (I : forall n i, insertions lt n l 0 i = l).
  { induction n as [|n IH]; intros i; cbn [insertions]; [reflexivity|].
    assert (D : insert_down lt i l 0 i = l).
    { destruct i as [|i]; cbn [insert_down]; [reflexivity|]. rewrite ordered_less by (exact S || lia). rewrite andb_false_r. reflexivity. }
    rewrite D. apply IH. }
  apply I.
Qed.
End Stable.

(** The transactions of one day, in order. *)
Definition of_day (d : date) (ts : list transaction) : list transaction := filter (fun t => date_eqb (t_date t) d) ts.

Lemma of_day_key : forall d ts, real_date d -> (forall t, In t ts -> real_date (t_date t)) ->
  of_day d ts = of_key (fun t => instant (t_date t)) (instant d) ts.
Proof.
  intros d ts R H. unfold of_day, of_key. apply filter_ext_in. intros t I. specialize (H t I).
  destruct (date_eqb (t_date t) d) eqn:Q.
  - apply date_eqb_eq in Q. rewrite Q. symmetry. apply Z.eqb_refl.
  - symmetry. apply Z.eqb_neq. intros X. assert (Y : t_date t = d); [|apply date_eqb_eq in Y; congruence].
    destruct (date_trichotomy (t_date t) d) as [K|[K|K]]; [|exact K|]; apply earlier_instant in K; try assumption; lia.
Qed.

(** print with Go's own sort: the dates are in order; up to six transactions keep
    their order within a day, and up to twelve that are in the order of their
    dates are printed in the journal's order. *)
Theorem C101_order_partial : forall E O fs, sane_clock E -> orders E -> go_sort E -> filters_for E (o_args O) fs -> CmdSpec.readable E O ->
  exists sel ts, picks E O fs (txns 0 (fst (stream E O))) sel /\ Permutation ts (selected sel) /\ date_ordered ts /\
    print_cmd E O = Outcome (lines (map transaction_string ts)) SOk /\
    ((length sel <= 6)%nat -> forall d, real_date d -> of_day d ts = of_day d (selected sel)) /\
    ((length sel <= 12)%nat -> date_ordered (selected sel) -> ts = selected sel).
Proof.
  intros E O fs C Or G F R. apply makeFilters_spec in F. pose proof (print_run_spec E O fs C Or) as K.
  unfold print_cmd, with_filters. rewrite F. unfold finish. destruct (print_run E O fs) as [s [| | | |]].
  2-5: destruct K as [Rd Out]; contradiction.
  destruct K as (_ & Out & sel & P & D). exists sel, (e_sort E (selected sel)).
  assert (Rl : forall t, In t (selected sel) -> real_date (t_date t)) by (intros; eapply selected_dated; eauto).
  destruct (sorted_dates E (selected sel) (go_sorts E G) Rl) as [Pm S].
  split; [exact P|]. split; [exact Pm|]. split; [exact S|].
  split; [rewrite Out, D; unfold lines; rewrite map_map; reflexivity|].
  assert (Le : length (selected sel) = length sel) by apply map_length.
  split.
  - intros L d Rd. assert (Rs : forall t, In t (e_sort E (selected sel)) -> real_date (t_date t)).
    { intros t I. apply Rl. eapply Permutation_in; [exact Pm|exact I]. }
    rewrite !of_day_key by assumption. rewrite G. apply (slice_stable (fun t => instant (t_date t))). lia.
  - intros L Do. rewrite G. apply (slice_ordered (fun t => instant (t_date t))); [lia|].
    revert Do Rl. generalize (selected sel). clear. induction l as [|x l IH]; intros S R; [constructor|].
    inversion S as [|? ? S' F]; subst. constructor; [apply IH; [assumption|intros; apply R; now right]|].
    rewrite Forall_forall in *. intros y Iy. specialize (F y Iy). apply Z.le_ngt. intros X. apply F. apply instant_order; [apply R; now right|apply R; now left|exact X].
Qed.

(** Printing up to twelve printed transactions again gives the very same text. *)
Theorem C70_up_to_twelve : forall E O fs sel out E' O', sane_clock E -> orders E -> sorts E -> filters_for E (o_args O) fs ->
  picks E O fs (txns 0 (fst (stream E O))) sel -> print_cmd E O = Outcome out SOk -> (length sel <= 12)%nat ->
  Forall reprintable (selected sel) -> Forall (fun t => 0 <= instant (t_date t)) (selected sel) ->
  sane_clock E' -> orders E' -> go_sort E' -> e_unicode E' = e_unicode E -> plain O' -> reads E' O' (concat out) ->
  print_cmd E' O' = Outcome out SOk.
Proof.
  intros E O fs sel out E' O' C Or So F P Q Le R Y C' Or' Go U Pl Rd.
  pose proof (print_ok E O fs C Or F (f_equal r_status Q)) as Re.
  destruct (C42_print E O fs C Or So F) as [K _]. destruct (K Re) as (sel0 & ts & P0 & Pm & S & Q0). clear K.
  rewrite Q in Q0. inversion Q0; subst out. clear Q0. rewrite (picks_selected _ _ _ _ _ _ P0 P) in Pm.
  destruct (printed_stream E O fs sel E' O' ts P Pm R U Rd) as (p & St).
  pose proof (readable_plain _ _ _ Pl St) as Re'.
  assert (F' : filters_for E' (o_args O') []) by (destruct Pl as (_ & _ & _ & ->); split; constructor).
  destruct (C101_order_partial E' O' [] C' Or' Go F' Re') as (sel' & ts' & P' & Pm' & S' & Q' & _ & K).
  rewrite St in P'. cbn [fst] in P'.
  assert (Y' : Forall (fun t => 0 <= instant (t_date t)) (map written_out ts)).
  { apply Forall_forall. intros t I. apply in_map_iff in I as (t0 & <- & I). rewrite Forall_forall in Y. apply (Y t0). eapply Permutation_in; eauto. }
  destruct (picks_all _ _ _ _ _ _ Pl Y' P') as [X _].
  assert (T : map transaction_string (map written_out ts) = map transaction_string ts) by (rewrite map_map; apply map_ext; apply string_written_out).
  rewrite Q', K, X, T; [reflexivity| |].
  - rewrite <- (map_length (fun x => u_txn (fst x)) sel'). change (map (fun x => u_txn (fst x)) sel') with (selected sel').
    rewrite X, map_length, (Permutation_length Pm). unfold selected. now rewrite map_length.
  - rewrite X. clear - S. unfold date_ordered in *. induction S as [|x l S IH F]; [constructor|]. cbn. constructor; [exact IH|].
    rewrite Forall_forall in *. intros y I. apply in_map_iff in I as (y0 & <- & I). apply (F y0 I).
Qed.

(** ** Witnesses *)
Definition with_sort (E : env) : env :=
  Env (e_unicode E) (e_fs E) (e_depth E) (e_ledger_file E) (e_re_ok E) (e_re_match E) (e_year E) (e_tomorrow E) (e_local E)
    (e_order E) (e_tree_order E) sort_by_date (e_now E).
(** Beside C70_example, which gives the rest of the hypotheses. *)
Example C70_twelve_example : let E' := with_sort (env1 full_again) in
  sane_clock E' /\ orders E' /\ go_sort E' /\ plain (opts0 "j") /\ reads E' (opts0 "j") (concat (r_out (print_cmd (env1 full_files) (opts0 "j")))) /\
  r_out (print_cmd E' (opts0 "j")) = r_out (print_cmd (env1 full_files) (opts0 "j")).
Proof.
  intro E'. split; [exact (env1_clock full_again)|]. split; [exact (env1_orders full_again)|]. split; [intro ts; reflexivity|].
  split; [apply plain0|]. split; [exists (lit "j"); split; vm_compute; reflexivity|]. vm_compute. reflexivity.
Qed.

Definition short_txn (day payee : String.string) : str :=
  lit "2021-03-" ++ lit day ++ lit " " ++ lit payee ++ [10] ++ lit "  x  1" ++ [10] ++ lit "  y" ++ [10].

Definition seven : str :=
  short_txn "02" "a" ++ short_txn "02" "b" ++ short_txn "02" "c" ++ short_txn "02" "d" ++ short_txn "02" "e" ++ short_txn "02" "f" ++ short_txn "01" "g".
Definition thirteen : str :=
  short_txn "01" "a" ++ short_txn "02" "b" ++ short_txn "03" "c" ++ short_txn "04" "d" ++ short_txn "05" "e" ++ short_txn "06" "f" ++
  short_txn "07" "g" ++ short_txn "07" "h" ++ short_txn "08" "i" ++ short_txn "09" "j" ++ short_txn "10" "k" ++ short_txn "11" "l" ++ short_txn "12" "m".
Definition delivered (E : env) (O : opts) : list transaction := map u_txn (txns 0 (fst (stream E O))).

Lemma env0_go : forall files, let E := with_sort (env0 files) in sane_clock E /\ orders E /\ go_sort E.
Proof.
  intros files E. split; [apply (env0_clock files)|]. split; [exact (env0_orders files)|]. intro ts. reflexivity.
Qed.

(** Seven transactions, the last one dated a day earlier: the first of the others
    is printed last.  And thirteen transactions in the order of their dates: the
    two of the seventh day change places. *)
Theorem C101_refuted :
  (exists E O ts d, sane_clock E /\ orders E /\ go_sort E /\ plain O /\ CmdSpec.readable E O /\ length (delivered E O) = 7%nat /\
     print_cmd E O = Outcome (lines (map transaction_string ts)) SOk /\
     map t_payee (of_day d (delivered E O)) = [lit "a"; lit "b"; lit "c"; lit "d"; lit "e"; lit "f"] /\
     map t_payee (of_day d ts) = [lit "b"; lit "c"; lit "d"; lit "e"; lit "f"; lit "a"]) /\
  (exists E O ts d, sane_clock E /\ orders E /\ go_sort E /\ plain O /\ CmdSpec.readable E O /\ length (delivered E O) = 13%nat /\
     date_ordered (delivered E O) /\
     print_cmd E O = Outcome (lines (map transaction_string ts)) SOk /\
     map t_payee (of_day d (delivered E O)) = [lit "g"; lit "h"] /\ map t_payee (of_day d ts) = [lit "h"; lit "g"]).
Proof.
  split.
  - set (E := with_sort (env0 [(lit "j", seven)])). exists E, (opts0 "j"), (sort_by_date (delivered E (opts0 "j"))), (Date 2021 3 2).
    split; [apply env0_go|]. split; [apply env0_go|]. split; [apply env0_go|]. split; [repeat split|].
    split; [apply readable_noflags; vm_compute; reflexivity|]. repeat (split; [vm_compute; reflexivity|]). vm_compute. reflexivity.
  - set (E := with_sort (env0 [(lit "j", thirteen)])). exists E, (opts0 "j"), (sort_by_date (delivered E (opts0 "j"))), (Date 2021 3 7).
    split; [apply env0_go|]. split; [apply env0_go|]. split; [apply env0_go|]. split; [repeat split|].
    split; [apply readable_noflags; vm_compute; reflexivity|]. split; [vm_compute; reflexivity|].
    split; [|repeat (split; [vm_compute; reflexivity|]); vm_compute; reflexivity].
    set (ds := map t_date (delivered E (opts0 "j"))).
    assert (Q : ds = [Date 2021 3 1; Date 2021 3 2; Date 2021 3 3; Date 2021 3 4; Date 2021 3 5; Date 2021 3 6; Date 2021 3 7; Date 2021 3 7; Date 2021 3 8;
                      Date 2021 3 9; Date 2021 3 10; Date 2021 3 11; Date 2021 3 12]) by (vm_compute; reflexivity).
    assert (S : StronglySorted (fun a b => ~ earlier b a) ds).
    { rewrite Q. repeat (constructor; [|repeat (constructor; [unfold earlier; cbn; lia|]); constructor]). constructor. }
    unfold ds in S. revert S. generalize (delivered E (opts0 "j")). clear. unfold date_ordered. induction l as [|x l IH]; intros S; [constructor|].
    inversion S as [|? ? S' F]; subst. constructor; [apply IH; exact S'|]. rewrite Forall_map in F. exact F.
Qed.

(** C42 with nothing assumed about sorting *)
Theorem C42_own_sort : forall E O fs, sane_clock E -> orders E -> go_sort E -> filters_for E (o_args O) fs ->
  (CmdSpec.readable E O -> exists sel ts, picks E O fs (txns 0 (fst (stream E O))) sel /\
     Permutation ts (selected sel) /\ date_ordered ts /\
     print_cmd E O = Outcome (lines (map transaction_string ts)) SOk) /\
  (~ CmdSpec.readable E O -> r_out (print_cmd E O) = [] /\ r_status (print_cmd E O) <> SOk).
Proof. intros E O fs C Or G F. exact (C42_print E O fs C Or (go_sorts E G) F). Qed.

Example C101_example :
  let E := with_sort (env0 [(lit "j", short_txn "03" "a" ++ short_txn "03" "b" ++ short_txn "02" "c")]) in let O := opts0 "j" in
  sane_clock E /\ orders E /\ go_sort E /\ filters_for E (o_args O) [] /\ CmdSpec.readable E O /\
  print_cmd E O = Outcome (lines (map transaction_string (sort_by_date (delivered E O)))) SOk /\
  map t_payee (sort_by_date (delivered E O)) = [lit "c"; lit "a"; lit "b"].
Proof.
  intros E O. split; [apply env0_go|]. split; [apply env0_go|]. split; [apply env0_go|]. split; [apply makeFilters_spec; reflexivity|].
  split; [apply readable_noflags; vm_compute; reflexivity|]. split; vm_compute; reflexivity.
Qed.
