(** * C139: the order in which print prints depends on the dates only *)
From Coq Require Import Permutation.
From Verif Require Import Base BaseFacts GoTime CalendarFacts Journal JournalFacts Lexer Parser ParserFacts Account Reporting Cmd Spec TextSpec CmdSpec CmdFacts FlatSpec Sample PropsCmd PropsAgain GoSort SortFacts PropsSort.

(** Sorting two lists in the same way *)
Section Alongside.
Context {A B : Type}.
Variables (lt : A -> A -> bool) (lt' : B -> B -> bool) (R : A -> B -> Prop).
Hypothesis same : forall a b a' b', R a a' -> R b b' -> lt a b = lt' a' b'.
Notation "l ~~ l'" := (Forall2 R l l') (at level 70).

Lemma nth_along : forall l l', l ~~ l' -> forall i, match nth_error l i, nth_error l' i with Some x, Some y => R x y | None, None => True | _, _ => False end.
Proof. induction 1 as [|x y l l' H _ IH]; intros [|i]; cbn; auto. apply IH. Qed.
Lemma less_along : forall l l' i j, l ~~ l' -> less lt l i j = less lt' l' i j.
Proof.
  intros l l' i j H. unfold less. pose proof (nth_along _ _ H i) as X. pose proof (nth_along _ _ H j) as Y.
  destruct (nth_error l i), (nth_error l' i), (nth_error l j), (nth_error l' j); try contradiction; auto.
Qed.
Lemma set_along : forall l l', l ~~ l' -> forall i x y, R x y -> set_nth i x l ~~ set_nth i y l'.
Proof. induction 1 as [|x y l l' H F IH]; intros [|i] x0 y0 K; cbn; constructor; auto. Qed.
Lemma swap_along : forall l l' i j, l ~~ l' -> swap l i j ~~ swap l' i j.
Proof.
  intros l l' i j H. unfold swap. pose proof (nth_along _ _ H i) as X. pose proof (nth_along _ _ H j) as Y.
  destruct (nth_error l i), (nth_error l' i), (nth_error l j), (nth_error l' j); try contradiction; auto. now repeat apply set_along.
Qed.
Lemma swap_if_along : forall b l l' i j, l ~~ l' -> swap_if b l i j ~~ swap_if b l' i j.
Proof. intros [|] l l' i j H; cbn; [now apply swap_along|exact H]. Qed.
Hint Resolve swap_along swap_if_along : core.

Lemma insert_down_along : forall n l l' a j, l ~~ l' -> insert_down lt n l a j ~~ insert_down lt' n l' a j.
Proof. induction n as [|n IH]; intros l l' a j H; cbn; [exact H|]. rewrite (less_along l l') by exact H. destruct (_ && _); auto. Qed.
Hint Resolve insert_down_along : core.
Lemma insertions_along : forall n l l' a i, l ~~ l' -> insertions lt n l a i ~~ insertions lt' n l' a i.
Proof. induction n as [|n IH]; intros l l' a i H; cbn; auto. Qed.
Lemma insertionSort_along : forall l l' a b, l ~~ l' -> insertionSort lt l a b ~~ insertionSort lt' l' a b.
Proof. intros. now apply insertions_along. Qed.
Lemma siftDown_along : forall n l l' r h f, l ~~ l' -> siftDown lt n l r h f ~~ siftDown lt' n l' r h f.
Proof.
  induction n as [|n IH]; intros l l' r h f H; cbn [siftDown]; [exact H|]. cbv zeta. destruct (_ <=? _)%nat; [exact H|].
  rewrite !(less_along l l') by exact H. match goal with |- context [if negb ?b then _ else _] => destruct b end; cbn; auto.
Qed.
Hint Resolve siftDown_along : core.
Lemma heap_up_along : forall i l l' h f, l ~~ l' -> heap_up lt i l h f ~~ heap_up lt' i l' h f.
Proof. induction i as [|i IH]; intros l l' h f H; cbn [heap_up]; auto. Qed.
Lemma heap_pop_along : forall n l l' f, l ~~ l' -> heap_pop lt n l f ~~ heap_pop lt' n l' f.
Proof. induction n as [|n IH]; intros l l' f H; cbn [heap_pop]; auto. Qed.
Lemma heapSort_along : forall l l' a b, l ~~ l' -> heapSort lt l a b ~~ heapSort lt' l' a b.
Proof. intros. unfold heapSort. now apply heap_pop_along, heap_up_along. Qed.
Lemma median_along : forall l l' a b c, l ~~ l' -> medianOfThree lt l a b c ~~ medianOfThree lt' l' a b c.
Proof.
  intros l l' a b c H. unfold medianOfThree. cbv zeta. rewrite (less_along l l') by exact H.
  set (m := swap_if _ l _ _). set (m' := swap_if _ l' _ _). assert (K : m ~~ m') by (apply swap_if_along, H). clearbody m m'.
  rewrite (less_along m m') by exact K. destruct (less lt' m' c a); [|exact K].
  rewrite (less_along (swap m c a) (swap m' c a)) by auto. auto.
Qed.
Hint Resolve median_along : core.
Lemma up_ext : forall n p q i lim, (forall k, p k = q k) -> up_while n p i lim = up_while n q i lim.
Proof. induction n as [|n IH]; intros p q i lim H; cbn; [reflexivity|]. rewrite H. destruct (_ && _); auto. Qed.
Lemma down_ext : forall n p q i lim, (forall k, p k = q k) -> down_while n p i lim = down_while n q i lim.
Proof. induction n as [|n IH]; intros p q i lim H; cbn; [reflexivity|]. rewrite H. destruct (_ && _); auto. Qed.
Lemma partition_along : forall n l l' p b c, l ~~ l' ->
  fst (fst (partition lt n l p b c)) ~~ fst (fst (partition lt' n l' p b c)) /\
  snd (fst (partition lt n l p b c)) = snd (fst (partition lt' n l' p b c)) /\ snd (partition lt n l p b c) = snd (partition lt' n l' p b c).
Proof.
  induction n as [|n IH]; intros l l' p b c H; cbn [partition]; [auto|]. cbv zeta.
  rewrite (up_ext _ _ (fun i => negb (less lt' l' p i)) b c) by (intro; now rewrite (less_along l l')).
  rewrite (down_ext _ _ (fun i => less lt' l' p i) c _) by (intro; now rewrite (less_along l l')).
  destruct (_ <=? _)%nat; [auto|]. apply IH. auto.
Qed.
Lemma gather_along : forall n l l' p a b, l ~~ l' ->
  fst (gather lt n l p a b) ~~ fst (gather lt' n l' p a b) /\ snd (gather lt n l p a b) = snd (gather lt' n l' p a b).
Proof.
  induction n as [|n IH]; intros l l' p a b H; cbn [gather]; [auto|]. cbv zeta.
  rewrite (down_ext _ _ (fun i => negb (less lt' l' i p)) b a) by (intro; now rewrite (less_along l l')).
  rewrite (up_ext _ _ (fun i => less lt' l' i p) a _) by (intro; now rewrite (less_along l l')).
  destruct (_ <=? _)%nat; [auto|]. apply IH. auto.
Qed.
Lemma doPivot_along : forall l l' lo hi, l ~~ l' ->
  fst (fst (doPivot lt l lo hi)) ~~ fst (fst (doPivot lt' l' lo hi)) /\
  snd (fst (doPivot lt l lo hi)) = snd (fst (doPivot lt' l' lo hi)) /\ snd (doPivot lt l lo hi) = snd (doPivot lt' l' lo hi).
Proof.
  intros l l' lo hi H. unfold doPivot. cbv zeta.
  match goal with |- context [medianOfThree lt ?x lo ((lo + hi) / 2) (hi - 1)] => match goal with |- context [medianOfThree lt' ?y lo ((lo + hi) / 2) (hi - 1)] =>
    assert (K : medianOfThree lt x lo ((lo + hi) / 2) (hi - 1) ~~ medianOfThree lt' y lo ((lo + hi) / 2) (hi - 1)) by (apply median_along; destruct (_ <? _)%nat; auto);
    set (m := medianOfThree lt x lo ((lo + hi) / 2) (hi - 1)) in *; set (m' := medianOfThree lt' y lo ((lo + hi) / 2) (hi - 1)) in * end end.
  clearbody m m'. clear H l l'.
  rewrite (up_ext _ _ (fun i => less lt' m' i lo) (lo + 1) (hi - 1)) by (intro; now rewrite (less_along m m')).
  set (a := up_while _ _ _ _). clearbody a. destruct (partition_along (hi - lo) m m' lo a (hi - 1) K) as (Kl & Kb & Kc).
  destruct (partition lt (hi - lo) m lo a (hi - 1)) as [[l b] c], (partition lt' (hi - lo) m' lo a (hi - 1)) as [[l' b'] c']. cbn [fst snd] in *. subst b' c'. clear K.
  assert (F : forall n (x : list A) (x' : list B) p b0, x ~~ x' -> forall pr : bool,
    let y := if pr then gather lt n x p a b0 else (x, b0) in let y' := if pr then gather lt' n x' p a b0 else (x', b0) in fst y ~~ fst y' /\ snd y = snd y').
  { intros n x x' p b0 X [|]; cbn zeta; [now apply gather_along|cbn; auto]. }
  assert (G : forall (x : list A) (x' : list B) b0 c0 pr, x ~~ x' ->
    let r := let '(l0, b1) := if pr : bool then gather lt (hi - lo) x lo a b0 else (x, b0) in (swap l0 lo (b1 - 1), (b1 - 1)%nat, c0 : nat) in
    let r' := let '(l0, b1) := if pr then gather lt' (hi - lo) x' lo a b0 else (x', b0) in (swap l0 lo (b1 - 1), (b1 - 1)%nat, c0) in
    fst (fst r) ~~ fst (fst r') /\ snd (fst r) = snd (fst r') /\ snd r = snd r').
  { intros x x' b0 c0 pr X. pose proof (F (hi - lo)%nat x x' lo b0 X pr) as Y. cbv zeta in Y |- *.
    destruct (if pr then gather lt (hi - lo) x lo a b0 else (x, b0)), (if pr then gather lt' (hi - lo) x' lo a b0 else (x', b0)). cbn in *. destruct Y as [Y ->]. auto. }
  destruct (negb (hi - c <? 5)%nat && (hi - c <? (hi - lo) / 4)%nat); [|apply G; exact Kl].
  rewrite (less_along l l') by exact Kl. destruct (negb (less lt' l' lo (hi - 1))).
  - pose proof (swap_along _ _ c (hi - 1) Kl) as K1. rewrite (less_along _ _ (b - 1) lo K1).
    destruct (negb (less lt' (swap l' c (hi - 1)) (b - 1) lo)); rewrite (less_along _ _ ((lo + hi) / 2) lo K1);
      destruct (negb (less lt' (swap l' c (hi - 1)) ((lo + hi) / 2) lo)); apply G; auto.
  - rewrite (less_along _ _ (b - 1) lo Kl).
    destruct (negb (less lt' l' (b - 1) lo)); rewrite (less_along _ _ ((lo + hi) / 2) lo Kl);
      destruct (negb (less lt' l' ((lo + hi) / 2) lo)); apply G; auto.
Qed.
Lemma shell_along : forall n l l' i, l ~~ l' -> shell lt n l i ~~ shell lt' n l' i.
Proof. induction n as [|n IH]; intros l l' i H; cbn [shell]; [exact H|]. rewrite (less_along l l') by exact H. auto. Qed.
Lemma short_along : forall l l' a b, l ~~ l' -> short_sort lt l a b ~~ short_sort lt' l' a b.
Proof. intros l l' a b H. unfold short_sort. destruct (_ <? _)%nat; [|exact H]. now apply insertionSort_along, shell_along. Qed.
Lemma quick_along : forall d l l' a b, l ~~ l' -> quickSort lt d l a b ~~ quickSort lt' d l' a b.
Proof.
  induction d as [|d IH]; intros l l' a b H; cbn [quickSort]; (destruct (_ <? _)%nat; [|now apply short_along]).
  - now apply heapSort_along.
  - pose proof (doPivot_along l l' a b H) as K. destruct (doPivot lt l a b) as [[m x] y], (doPivot lt' l' a b) as [[m' x'] y']. cbn [fst snd] in K.
    destruct K as (K & -> & ->). destruct (_ <? _)%nat; auto.
Qed.
Lemma slice_along : forall l l', l ~~ l' -> slice lt l ~~ slice lt' l'.
Proof.
  intros l l' H. unfold slice. assert (L : length l = length l') by (clear - H; induction H; cbn; congruence). rewrite L. now apply quick_along.
Qed.
End Alongside.

(** What is at the given places of a list *)
Definition at_places {A} (l : list A) (places : list nat) (r : list A) : Prop := Forall2 (fun i x => nth_error l i = Some x) places r.
(** The same days come before the same days. *)
Definition same_days_order (ts ts' : list transaction) : Prop :=
  length ts' = length ts /\ forall i j a b a' b', nth_error ts i = Some a -> nth_error ts j = Some b -> nth_error ts' i = Some a' -> nth_error ts' j = Some b' ->
    (earlier (t_date a) (t_date b) <-> earlier (t_date a') (t_date b')).

Lemma seq_along : forall {A} (l pre : list A), Forall2 (fun x i => nth_error (pre ++ l) i = Some x) l (seq (length pre) (length l)).
Proof.
  intros A l. induction l as [|x l IH]; intros pre; [constructor|]. cbn [length seq]. constructor.
  - rewrite nth_error_app2 by lia. now rewrite Nat.sub_diag.
  - specialize (IH (pre ++ [x])). rewrite app_length in IH. cbn in IH. rewrite Nat.add_1_r, <- app_assoc in IH. exact IH.
Qed.
Lemma places_back : forall {A} (l : list A) r is, Forall2 (fun x i => nth_error l i = Some x) r is -> at_places l is r.
Proof. intros A l r is H. induction H; constructor; assumption. Qed.

Lemma sort_places : forall ts ts', (forall t, In t (ts ++ ts') -> real_date (t_date t)) -> same_days_order ts ts' ->
  exists places, Permutation places (seq 0 (length ts)) /\ at_places ts places (sort_by_date ts) /\ at_places ts' places (sort_by_date ts').
Proof.
  intros ts ts' Rl [L S]. set (key := fun i => match nth_error ts i with Some t => instant (t_date t) | None => 0 end).
  exists (slice (fun i j => key i <? key j) (seq 0 (length ts))). split; [apply slice_sorts|]. split; apply places_back; apply slice_along.
  - intros a b i j Ha Hb. unfold key. rewrite Ha, Hb. reflexivity.
  - exact (seq_along ts []).
  - intros a' b' i j Ha' Hb'. assert (Hi : exists a, nth_error ts i = Some a).
    { destruct (nth_error ts i) eqn:Q; [eauto|]. apply nth_error_None in Q. assert (i < length ts')%nat by (apply nth_error_Some; congruence). lia. }
    assert (Hj : exists b, nth_error ts j = Some b).
    { destruct (nth_error ts j) eqn:Q; [eauto|]. apply nth_error_None in Q. assert (j < length ts')%nat by (apply nth_error_Some; congruence). lia. }
    destruct Hi as [a Ha], Hj as [b Hb]. unfold key. rewrite Ha, Hb. pose proof (S i j a b a' b' Ha Hb Ha' Hb') as X.
    assert (Ra : real_date (t_date a)) by (apply Rl, in_or_app; left; eapply nth_error_In; eauto).
    assert (Rb : real_date (t_date b)) by (apply Rl, in_or_app; left; eapply nth_error_In; eauto).
    assert (Ra' : real_date (t_date a')) by (apply Rl, in_or_app; right; eapply nth_error_In; eauto).
    assert (Rb' : real_date (t_date b')) by (apply Rl, in_or_app; right; eapply nth_error_In; eauto).
    rewrite <- !instant_order in X by assumption.
    change (date_before (t_date a') (t_date b')) with (instant (t_date a') <? instant (t_date b')).
    destruct (Z.ltb_spec (instant (t_date a')) (instant (t_date b'))), (Z.ltb_spec (instant (t_date a)) (instant (t_date b))); tauto || lia.
  - rewrite <- L. exact (seq_along ts' []).
Qed.

Lemma print_of : forall E O fs sel, sane_clock E -> orders E -> go_sort E -> filters_for E (o_args O) fs -> CmdSpec.readable E O ->
  picks E O fs (txns 0 (fst (stream E O))) sel -> print_cmd E O = Outcome (lines (map transaction_string (sort_by_date (selected sel)))) SOk.
Proof.
  intros E O fs sel C Or G F R P. apply makeFilters_spec in F. pose proof (print_run_spec E O fs C Or) as K.
  unfold print_cmd, with_filters. rewrite F. unfold finish. destruct (print_run E O fs) as [s [| | | |]].
  2-5: destruct K as [Rd Out]; contradiction.
  destruct K as (_ & Out & sel0 & P0 & D). assert (Q : selected sel0 = selected sel).
  { unfold selected. pose proof (picks_fun _ _ _ _ _ _ P P0) as X.
    transitivity (map u_txn (map fst sel0)); [rewrite map_map; apply map_ext; now intros []|]. rewrite <- X, map_map. apply map_ext. now intros []. }
  rewrite Out, D, Q, <- G. unfold lines. rewrite map_map. reflexivity.
Qed.

(** Two runs of print, with transactions whose days come in the same order: the
    transactions of the same places are printed, one after another, in both. *)
Theorem C139_print : forall E O fs sel E' O' fs' sel', sane_clock E -> orders E -> go_sort E -> filters_for E (o_args O) fs ->
  sane_clock E' -> orders E' -> go_sort E' -> filters_for E' (o_args O') fs' -> CmdSpec.readable E O -> CmdSpec.readable E' O' ->
  picks E O fs (txns 0 (fst (stream E O))) sel -> picks E' O' fs' (txns 0 (fst (stream E' O'))) sel' ->
  same_days_order (selected sel) (selected sel') ->
  exists places ts ts', Permutation places (seq 0 (length sel)) /\ at_places (selected sel) places ts /\ at_places (selected sel') places ts' /\
    print_cmd E O = Outcome (lines (map transaction_string ts)) SOk /\ print_cmd E' O' = Outcome (lines (map transaction_string ts')) SOk.
Proof.
  intros E O fs sel E' O' fs' sel' C Or G F C' Or' G' F' R R' P P' S.
  destruct (sort_places (selected sel) (selected sel')) as (places & Pm & A & A'); [|exact S|].
  { intros t I. apply in_app_or in I as [I|I]; [exact (selected_dated _ _ _ _ _ P I)|exact (selected_dated _ _ _ _ _ P' I)]. }
  exists places, (sort_by_date (selected sel)), (sort_by_date (selected sel')).
  split; [now replace (length sel) with (length (selected sel)) by apply map_length|]. split; [exact A|]. split; [exact A'|]. split; eapply print_of; eauto.
Qed.

Definition other_txn (day payee : String.string) : str :=
  lit day ++ lit " * " ++ lit payee ++ [10] ++ lit "  Food  £5.30" ++ [10] ++ lit "  ; note" ++ [10] ++ lit "  Cash" ++ [10].
Definition other_seven : str :=
  other_txn "2020-02-29" "Z" ++ other_txn "2020-02-29" "Y" ++ other_txn "2020-02-29" "X" ++ other_txn "2020-02-29" "W" ++ other_txn "2020-02-29" "V" ++
  other_txn "2020-02-29" "U" ++ other_txn "2019-12-31" "T".
(** Seven transactions in two journals that share nothing but the order of their
    days; what is out of order in one is out of order in the other. *)
Example C139_example : let E := with_sort (env0 [(lit "j", seven)]) in let E' := with_sort (env0 [(lit "j", other_seven)]) in let O := opts0 "j" in
  exists sel sel', sane_clock E /\ orders E /\ go_sort E /\ filters_for E (o_args O) [] /\ sane_clock E' /\ orders E' /\ go_sort E' /\ filters_for E' (o_args O) [] /\
  CmdSpec.readable E O /\ CmdSpec.readable E' O /\ picks E O [] (txns 0 (fst (stream E O))) sel /\ picks E' O [] (txns 0 (fst (stream E' O))) sel' /\
  length sel = 7%nat /\ same_days_order (selected sel) (selected sel') /\
  map (fun l => firstn 1 (skipn 13 l)) (r_out (print_cmd E O)) = map lit ["g"; "b"; "c"; "d"; "e"; "f"; "a"]%string /\
  map (fun l => firstn 1 (skipn 13 l)) (r_out (print_cmd E' O)) = map lit ["T"; "Y"; "X"; "W"; "V"; "U"; "Z"]%string.
Proof.
  cbv zeta. set (us := txns 0 (fst (stream (with_sort (env0 [(lit "j", seven)])) (opts0 "j")))). vm_compute in us.
  set (us' := txns 0 (fst (stream (with_sort (env0 [(lit "j", other_seven)])) (opts0 "j")))). vm_compute in us'.
  exists (map (fun u => (u, t_postings (u_txn u))) us), (map (fun u => (u, t_postings (u_txn u))) us').
  split; [apply env0_go|]. split; [apply env0_go|]. split; [apply env0_go|]. split; [apply makeFilters_spec; reflexivity|].
  split; [apply env0_go|]. split; [apply env0_go|]. split; [apply env0_go|]. split; [apply makeFilters_spec; reflexivity|].
  split; [apply readable_noflags; vm_compute; reflexivity|]. split; [apply readable_noflags; vm_compute; reflexivity|].
  split; [subst us; cbn [map]; repeat (apply PickIt; [apply plain_within; [apply plain0|vm_compute; discriminate]|reflexivity|reflexivity|reflexivity|]); apply PickNone|].
  split; [subst us'; cbn [map]; repeat (apply PickIt; [apply plain_within; [apply plain0|vm_compute; discriminate]|reflexivity|reflexivity|reflexivity|]); apply PickNone|].
  split; [reflexivity|]. split; [|split; vm_compute; reflexivity].
  split; [reflexivity|]. subst us us'. unfold selected. cbn [map]. intros i j a b a' b' Ha Hb Ha' Hb'.
  assert (X : forall k (t t' : transaction), nth_error (selected (map (fun u => (u, t_postings (u_txn u))) (txns 0 (fst (stream (with_sort (env0 [(lit "j", seven)])) (opts0 "j")))))) k = Some t ->
    nth_error (selected (map (fun u => (u, t_postings (u_txn u))) (txns 0 (fst (stream (with_sort (env0 [(lit "j", other_seven)])) (opts0 "j")))))) k = Some t' ->
    t_date t = Date 2021 3 2 /\ t_date t' = Date 2020 2 29 \/ t_date t = Date 2021 3 1 /\ t_date t' = Date 2019 12 31).
  { intros k t t' H H'. vm_compute in H, H'. do 7 (destruct k as [|k]; [injection H as <-; injection H' as <-; vm_compute; auto|]). destruct k; discriminate. }
  destruct (X i a a' Ha Ha') as [[-> ->]|[-> ->]], (X j b b' Hb Hb') as [[-> ->]|[-> ->]]; unfold earlier; cbn; lia.
Qed.
